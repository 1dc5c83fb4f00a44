"""Which lines of which generated C files tools/c2coq.py translates."""
import re, os, sys
REPO = sys.argv[1] if len(sys.argv) > 1 else '/repo'
M = 'Src/Main/Modules/'
POINT = 'Pointwise: one node ijk of the loop over the nodes of a patch; doubles are reals.'
def lines_of(src): return open(os.path.join(REPO, src)).read().split('\n')
def find(src, pat, start=1):
    for i, l in enumerate(lines_of(src), 1):
        if i >= start and re.search(pat, l): return i
    raise SystemExit('no %s in %s' % (pat, src))

def fld(b, arity, *ix): return ('fld', (b, arity, ix))
DIR = {'_x_': 0, '_y_': 1, '_z_': 2}
CALLS = {
  'd2f_dxdu_Jacobian': lambda a: fld('J1', 1, int(a[1])),
  'd3f_dx2du_Jacobian': lambda a: fld('J2', 1, int(a[1])),
  'dq2_dq1': lambda a: fld('dXc', 1, DIR[a[2]]),
}
C = []
D = M + 'Maths/Diff_Geom/'
C.append(dict(mod='GenChris', src=D+'dg_Christoffel_symbol_3d.c', doc=POINT, parts=[dict(lines=(75, 175))]))
C.append(dict(mod='GenRicci', src=D+'dg_Ricci_3d.c', doc=POINT, parts=[dict(lines=(126, 280))]))

def schur(mod, f, kind, extra=None):
    src = M + 'Physics/Equation/' + f
    L = lines_of(src); parts = []; cnt = {}
    cond = ''
    opened = None
    if extra: parts.append(dict(lines=extra[0], share=True))
    for i, l in enumerate(L, 1):
        if re.search(r'if \(patch->outerB\)', l.split('/*')[0]) and 'else' not in l: cond = 'outer_'
        if re.search(r'else if \(patch->innerB\)', l.split('/*')[0]): cond = 'inner_'
        m = re.match(r'\s*DDM_SCHUR_(\w+)_OPEN', l)
        if m:
            t = m.group(1)
            p = cond + ('B_' if t.endswith('Bpart') else 'E_' if t.endswith('Epart') else '')
            cnt[p] = cnt.get(p, 0) + 1
            if cnt[p] > 1: p = 'add_' + p
            opened = (i, p)
        if re.match(r'\s*DDM_SCHUR_\w+_CLOSE', l):
            parts.append(dict(lines=(opened[0]+1, i-1), prefix=opened[1], share=bool(extra)))
    d = dict(mod=mod, src=src, doc='Pointwise: one pass of the loop bodies. schur_F / schur_B / schur_Et entries are the out_ definitions; '
             'J1 a, J2 a are d2f_dxdu_Jacobian / d3f_dx2du_Jacobian on axis a at (ijk,lmn), kd is kd[ijk==lmn].',
             parts=parts, calls=CALLS, ix=['ijk', 'lmn', 'schur_ijk', 'schur_lmn'], scalars=(extra[1] if extra else ['v0_boost','v1_boost','v2_boost']), skip=[r'\s*READ_v\(\w+\)'])
    C.append(d)
EQ = 'eq_XCTS_crv_ex_T1_ddm_'
for v, s in (('psi', 'Psi'), ('alphaPsi', 'AlphaPsi'), ('B0_U0', 'B0'), ('B0_U1', 'B1'), ('B0_U2', 'B2')):
    schur('GenEq'+s, EQ+'eq_'+v+'.c', 'eq')
    schur('GenJac'+s, EQ+'Jac_eq_'+v+'.c', 'jac')
    schur('GenBc'+s, EQ+'bc_'+v+'.c', 'bc')
    schur('GenJacBc'+s, EQ+'Jac_bc_'+v+'.c', 'jacbc')
for i in range(3): schur('GenFlatJacB%d' % i, 'eq_XCTS_flt_ex_T1_ddm_Jac_eq_B0_U%d.c' % i, 'jac')
schur('GenBc2AlphaPsi', 'eq_XCTS_crv_ex_T2_ddm_bc_alphaPsi.c', 'bc')
schur('GenJacBc2AlphaPsi', 'eq_XCTS_crv_ex_T2_ddm_Jac_bc_alphaPsi.c', 'jacbc')
def att(f): 
    n = find(M+'Physics/Equation/'+f, r'const double att')
    return ((n, n), ['rhoc', 'e', 'Att_Con_Num', 'interp'])
for f, m in (('eq_XCTS_crv_T1_ddm_eq_phi.c', 'GenEqPhi1'), ('eq_XCTS_crv_T2_ddm_eq_phi.c', 'GenEqPhi2'), ('eq_XCTS_crv_T1_ddm_Jac_eq_phi.c', 'GenJacPhi')):
    schur(m, f, 'eq', att(f))
schur('GenBcPhi1', 'eq_XCTS_crv_T1_ddm_bc_phi.c', 'bc')
schur('GenBcPhi3', 'eq_XCTS_crv_T3_ddm_bc_phi.c', 'bc')
schur('GenJacBcPhi1', 'eq_XCTS_crv_T1_ddm_Jac_bc_phi.c', 'jacbc')
schur('GenJacBcPhi3', 'eq_XCTS_crv_T3_ddm_Jac_bc_phi.c', 'jacbc')
A = M + 'Physics/ADM/'
def loop(mod, f, skip=[], nth=None):
    L = lines_of(A+f); parts = []
    st = [i for i, l in enumerate(L, 1) if l.strip() == 'FOR_ALL_ijk']
    if nth is not None: st = st[nth:]
    for k, i in enumerate(st):
        e = find(A+f, r'^}', i)
        d = dict(lines=(i+2, e-1))
        if k: d['prefix'] = 'd_'
        parts.append(d)
    C.append(dict(mod=mod, src=A+f, doc=POINT, parts=parts, skip=skip))
loop('GenAConfIJ', 'adm_AConfIJ_XCTS_MConfIJ0.c')
loop('GenAConfIJ2', 'adm_AConfIJ_SCTT_MConfIJ0.c')
loop('GenKDD', 'adm_adm_KDD_by_AUU.c')
loop('GenKUU', 'adm_adm_KUU_by_AUU.c')
loop('GenKUU2', 'adm_adm_KUU_by_KDD.c')
loop('GenAdmG', 'adm_adm_g.c')
loop('GenHamMom', 'adm_ham_mom_from_identities.c')
loop('GenHamMom2', 'adm_ham_mom_from_scratch.c', nth=1)
T = M + 'Physics/StressEnergy_Tensor/Tij_NS_ifluid_xcts_gConf_'
EOS = ' p and e0 are what the EoS returns for the enthalpy of the node.'
C.append(dict(mod='GenTijE', src=T+'psi6E.c', doc=POINT+EOS, parts=[dict(lines=(25, 44))], scalars=['p']))
C.append(dict(mod='GenTijJ', src=T+'psi6J_Ui.c', doc=POINT+EOS, parts=[dict(lines=(41, 86))], scalars=['p', 'e0']))
C.append(dict(mod='GenTijS', src=T+'psi6S.c', doc=POINT+EOS, parts=[dict(lines=(41, 70))], scalars=['p', 'e0']))
C.append(dict(mod='GenU0', src=T+'u0.c', doc=POINT, parts=[dict(lines=(42, 65))]))
C.append(dict(mod='GenEnthalpy', src=T+'enthalpy.c', doc=POINT+' sqrt of a negative number is 0 here: FluidModel.v adds the isfinite test.', parts=[dict(lines=(44, 86))], scalars=['Euler_C']))
ST = M + 'Physics/Star/star_NS_'
C.append(dict(mod='GenMass', src=ST+'baryonic_gConf_mass.c', doc=POINT+' sqrt of a negative number is 0 here: FluidModel.v adds the isfinite test.', parts=[dict(lines=(49, 97))], scalars=['Euler_C']))
C.append(dict(mod='GenEulerC', src=ST+'Euler_eq_const_current.c', doc='At the node the function picks.', parts=[dict(lines=(51, 65))]))
C.append(dict(mod='GenGamma', src=ST+'ifluid_gConf_dLnGamma.c', doc=POINT, parts=[dict(lines=(43, 75))]))
C.append(dict(mod='GenGtilda', src=ST+'ifluid_gConf_force_bal.c', doc=POINT+' x0, y0: Cartesian coordinates of the node.', parts=[dict(lines=(76, 112))], scalars=['Omega', 'Vr', 'D', 'x_CM', 'y_CM', 'x0', 'y0']))
FD = M + 'Physics/Free_Data/'
C.append(dict(mod='GenKsKij', src=FD+'fd_KerrSchild_Kij_trK.c', doc=POINT+' KS__alpha, KS__beta: KsModel.v; dKS__beta_DiDj is the patch derivative of KS__beta_Di.', parts=[dict(lines=(131, 207))]))
C.append(dict(mod='GenPgKij', src=FD+'fd_PGSchild_Kij_trK.c', doc=POINT+' alpha is the constant 1. of line 18.', parts=[dict(lines=(42, 71))], scalars=['alpha']))
OB = M + 'Physics/Observe/'
def obsloops(mod, f, doc=POINT, skip=[], scalars=[], only=None):
    """the bodies of the loops over ijk of one observable (the one that only stores xi is left to ObsModel.v)"""
    L = lines_of(OB+f); parts = []
    for i, l in enumerate(L, 1):
        if re.match(r'\s*(for *\(ijk = 0; ijk < nn; \+\+ijk\)|FOR_ALL_ijk)', l):
            ind = re.match(r'\s*', L[i]).group(0)
            e = i + 1
            while L[e].rstrip() != ind + '}': e += 1
            body = '\n'.join(L[i+1:e])
            if re.search(r'xi_U0\[ijk\] =', body): continue
            d = dict(lines=(i+2, e))
            if parts: d['prefix'] = 'v_'
            parts.append(d)
    C.append(dict(mod=mod, src=OB+f, doc=doc, parts=parts, scalars=scalars,
      skip=skip+[r'double [xyz] += patch->node\[ijk\]->x\[[012]\]', r'DEF_RELATIVE_[xyzr]', r'double att = r > CutOff \? 0:1']))
NRM = ' n: the stored normal of the item; xi: position relative to the centre.'
obsloops('GenObsP', 'obs_ADM_P_S_default.c', POINT+NRM)
obsloops('GenObsJ', 'obs_ADM_J_S_default.c', POINT+NRM)
obsloops('GenObsPR', 'obs_ADM_P_Stokes_Rashti.c', POINT+NRM+' v_: the loop of the volume items.')
obsloops('GenObsPC', 'obs_ADM_P_Stokes_constraint.c', POINT+NRM+' v_: the loop of the volume items.')
obsloops('GenObsJC', 'obs_ADM_J_Stokes_constraint.c', POINT+NRM+' v_: the loop of the volume items; x, y, z: Cartesian coordinates of the node.', scalars=['x','y','z','x_cm','y_cm','z_cm'])
obsloops('GenObsPO', 'obs_ADM_P_Stokes_Ossokine.c', POINT+NRM+' v_: the loop of the volume items; att: 0 beyond the cut-off radius, else 1.', scalars=['att'])
obsloops('GenObsJO', 'obs_ADM_J_Stokes_Ossokine.c', POINT+NRM)
obsloops('GenObsMS2', 'obs_ADM_mass_S2.c', POINT+NRM)
obsloops('GenObsMI', 'obs_ADM_mass_SV_isotropic.c', POINT+NRM+' v_: the loop of the volume items; att: 0 beyond the cut-off radius, else 1.', scalars=['att'])
obsloops('GenObsMC', 'obs_ADM_mass_SV_conformal.c', POINT+NRM+' v_: the loop of the volume items.')
obsloops('GenObsK', 'obs_Komar_mass.c', POINT+NRM+' v_: the loop of the volume items.')
obsloops('GenObsSC', 'obs_spin_inegrands_Campanelli.c', POINT+NRM)
obsloops('GenObsSA', 'obs_spin_inegrands_AKV.c', POINT+NRM)
obsloops('GenObsRc', 'obs_Rcenter_NS.c', POINT+' x, y, z: Cartesian coordinates of the node.', scalars=['x','y','z','x_CM','y_CM','z_CM'])
AH = M + 'Physics/BlackHole/bh_expansion_of_AH.c'
C.append(dict(mod='GenAH', src=AH, doc=POINT+' Theta is the value before fabs.', parts=[dict(lines=(find(AH, r'double DisConfI'), find(AH, r'Theta = fabs')-1))]))
CONFIGS = C
