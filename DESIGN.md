# Formal model of Elliptica in Rocq (Coq 8.16.1)

This file is kept current; it is written before the proofs and amended as the model grows.

## 1. Ground rules of the model

* Everything is read from `/repo`; nothing is built or run. Each definition cites file and lines.
* C outcome monad (`Base.v`): `Ok x | Abort | UB`. `Abort` = the code calls `Error0`/`bad_input`/a
  failing `assert`/`exit` (the program stops with a message). `UB` = null dereference, out-of-bounds access, or
  the like. A theorem that says "returns x" says `= Ok x`, so it excludes both.
* C strings: `list ascii` (without the final NUL). A null pointer is `None`.
* Numbers: `int`/`Uint` as `Z` with explicit range conditions where overflow matters; sizes and indices as `nat`.
  `double` is modelled in one of three ways, said at each file:
  (a) as an abstract type with abstract `strtod`/`printf` functions (parameter database, checkpoint): section
  parameters, universally quantified in the final theorems;
  (b) as exact real numbers (`Coq.Reals`) for matrix algebra and numerical formulas: rounding is NOT modelled;
  (c) as `Z`/`Q` in executable witnesses of refutations.
* Loops become structural recursion or fuelled recursion whose fuel is proved sufficient.
* Memory allocation is assumed to succeed (calloc/realloc failure = the code's own abort, not modelled).

## 2. Files

| file | content |
|---|---|
| `Base.v` | outcome monad, C strings, ctype functions |
| `RealBase.v` | real arithmetic of the numeric part: `LSS/GRT/EQL` macros, division with a visible zero divisor, finite sums |
| `*Model.v` | the model of the code, no proofs; every definition cites file and lines |
| `Gen*.v` | models of the machine-generated pointwise tensor code, translated statement by statement from the C text by `tools/c2coq.py` (configuration `tools/c2coq_cfg.py`): one definition per C local, `out_X` per array element written, `store_B` per tensor family; each cites its lines. `tools/c2coq.py` can be rerun on `/repo` and reproduces the files byte for byte |
| `*Spec.v` | small independent specifications used in the statements |
| `*Proofs.v`, `*Final.v`, others | lemmas |
| `Props_*.v` | only the property theorems, each closed by `exact lemma`, with `Print Assumptions` and non-vacuity examples |
| `AXIOMS.md` | `Print Assumptions` of every property theorem, generated by `tools/axioms.py` |
| `seeded/LOG.jsonl` | the wrong programs tried against the theorems |

## 3. Properties: model and method

See `properties.jsonl` for the statements and `MANIFEST.json` for the theorem names. A property that is false of the code
as a whole has a `_partial` theorem (with the exact condition under which it holds) and a `_refuted` theorem (a proof that
the code violates it, with a concrete input or for a whole class of inputs).

| id | modelled code | method |
|---|---|---|
| C01 | parameter name rule | induction on strings |
| C02-C06 | parameters.c: database as list of records, all mutators and readers, iterative list, numeric cache | refinement to a map by induction over histories; cache invariant; refutation of C05 for defaults on empty parameters |
| C07-C12 | iterative parameter splitting/expansion, iteration bookkeeping, iteration folders | induction on strings/lists; refutation for C08 |
| C13-C17 | read_parameter_file.c, text_tools.c: make_buffer, tok_s on a mutable buffer, populate_parameters | induction over bytes; refutations by computation |
| C18-C22 | checkpoint.c: byte codec, file-system step machine, `modify:` merge | round trip by induction, invariant over every crash point |
| C23, C43, C51 | folders, names from the parameter file path | least index by search proved to terminate, histories of calls |
| C24-C26, C41, C42 | fields.c: field pool, coefficient cache, attributes | refinement to a map / cache invariant over histories |
| C27, C28, C44, C45 | index arithmetic of grids and faces | div/mod arithmetic |
| C29-C35, C46 | matrices.c and friends: dense, CCS, conversions, products, lookups over the reals | induction; refutations |
| C36, C52-C54 | 3x3 inverse macros, boosts, rotations, spherical/Cartesian components over the reals | field; derivative limits; refutations |
| C37 | inversion by columns and preconditioner, with the direct solver as a hypothesis (its contract) | linear algebra over finite sums |
| C38, C55-C59 | Chebyshev transforms, interpolation, first/second spectral derivative, functional derivatives and Jacobian rows | discrete orthogonality, uniqueness of polynomials, derivative limits |
| C39, C60 | root_finders.c: bisection and steepest descent | loop invariants, intermediate value theorem; refutations |
| C61-C65 | whole-patch coefficients, interpolation, volume and surface integrals on Cartesian patches, Jacobian inverse | tensor products of the 1-d results; antiderivatives |
| C66, C67 | Simpson and Gauss quadratures, Factorial | panel sums; discrete orthogonality; refutation by int overflow |
| C68 | spectral_filter.c | series and their transform |
| C69-C75 | eos_main.c, eos_polytropics.c, eos_tabular.c: construction and evaluation of polytropes, piecewise polytropes and log-Hermite tables (the interpolant is a parameter) | real powers, derivative limits, invariants of the fill loops; refutations |
| C76-C80 | interpolations.c (Neville, natural cubic spline, Hermite), derivatives.c finite_difference_Fornberg, eos_polytropics.c *_pwp_ncs | polynomial uniqueness, tridiagonal recurrence, confluent divided differences (commuting quotients), jets of Lagrange weights; refutations |
| C81-C85 | coordinate_utilities.c (coordinate changes, searches, angles), cubed_spherical_coordinate.c (index/sign permutation, Jacobian functions, make_nodes formula), general.c (arctan, norms) | geometry of six sides written without the code's permutations, derivative limits along each axis, determinants, list invariants; refutations |
| C86-C92 | solve_eqs_ddm_schur_complement.c (numbering, sewing, g, F and C, Schur complement solve, update, Newton loop), solve_eqs.c default stop criterion. Parameters: UMFPACK (contract `exact_solver`), Partial_Derivative/interpolation and their Jacobians (contract `jacobians_match`), the equations of the patches. Any commutative ring | invariants of the block loops, sums over permutations, refinement of the sparse blocks to dense ones, induction over Newton steps; refutations |
| C93-C95 | dg_Christoffel_symbol_3d.c, dg_Ricci_3d.c (models `Gen*.v` generated from the C text by `tools/c2coq.py`), dg_scale_to_BSSN_metric_3d.c, fd_populate.c (conformal Kerr-Schild) | case analysis on indices and `field`; uniqueness of the Levi-Civita connection; refutation |
| C96-C100 | eq_XCTS_{crv,flt}_*.c (psi, alphaPsi, shift: residuals, Jacobians, boundary conditions), adm_AConfIJ_*.c, adm_adm_*.c, adm_ham_mom_*.c (models `Gen*.v` generated by `tools/c2coq.py`) | `field` to covariant form; derivative along nodal bumps; Ricci identity; conformal transformation of Ricci scalar, divergence, expansion |
| C101-C102 | eq_XCTS_crv_T{1,2}_ddm_eq_phi.c, _Jac_eq_phi.c, T{1,3}_ddm_bc_phi.c, _Jac_bc_phi.c: residual = divergence of the mass flux (derivatives of functions on R^3), matrices = derivatives of the residuals |
| C103-C106 | Tij_NS_ifluid_xcts_gConf_{u0,psi6E,psi6J_Ui,psi6S,enthalpy}.c, star_NS_Euler_eq_const_current.c, star_NS_baryonic_gConf_mass.c, star_NS_ifluid_gConf_{force_bal,dLnGamma}.c (generated), W spin vector, inspiral B1, relaxed updates: against a four-dimensional perfect fluid (FluidSpec.v); Euler round trip by the larger root of a quadratic; force balance by differentiating the first integral along a line |
| C107-C109 | fourier_transformation.c: 1-d and 2-d transforms, interpolation, derivatives, continuation over the poles: coefficients are sums against a Dirichlet kernel whose values at nodes and on resolved modes are computed by telescoping |
| C110-C112 | spherical_harmonics.c, spherical_harmonics_transformation.c, Legendre weights: Rodrigues' formula as a family of iterated derivatives, recurrences and the differential equation from it, orthogonality and norms by integration by parts, Gauss-Legendre exactness by division with remainder; the table of Legendre roots is a parameter assumed to hold exact zeros (the file holds rounded ones) |
| C113-C115 | TOV_solution.c, the equation of state and the splines as parameters: chain rule through the inverse of r(h) for the TOV equations, a primitive of the Komar integrand, limits from below at the centre (a l'Hopital lemma), the incompressible star as witness, the search as an invariant (rise, then bracket) over the iteration of one loop body |
| C116-C118 | idr_main.c, idr_read_write.c and parameter_query_from_checkpoint over the byte model of the checkpoint; the grid (names per patch, search, interpolation) as a record of parameters; loops by induction on the lists, success characterised by an iff |
| C119-C124 | the 7000 lines of generated Kerr-Schild functions translated mechanically (tools/ks2coq.py, GenKs*.v), each checked to be the derivative of the previous one along a curve of nodes, then compared with a written-out boosted Kerr metric (KsSpec.v); fd_KerrSchild_set_params, the populate loops, the surface equation and bh_bh.c start-offs by hand |
| C125-C128 | fd_populate.c and the generated Kij formulas over the Kerr-Schild model: roll-off, blend, conformal rescaling (with the BSSN theorem of C95), isotropic and Painleve-Gullstrand Schwarzschild compared with the Schwarzschild line element |
| C129-C135 | The integrands of Observe/*.c are generated (tools/c2coq.py, GenObs*.v) and compared with the tensor formulas over the physical geometry of AdmSpec (K_ij - K gamma_ij, currents, fluxes, divergences); Gauss consistency proved with metric compatibility and the momentum constraint, Komar with the lapse equation; the two normals by hand |
| C136-C141 | The if/else chains of calc_ADM_P/J/mass and calc_Kommar_mass are generated (tools/obsdisp.py, GenObsDisp.v) with the loops by hand (ObsDispModel.v); collect_patches/IsItCovering and the tags of the patches (RegionModel.v), the pieces of a split cubed spherical grid with their names (GridModel.v) and the summation (ObsReportModel.v) by hand. The generated chains are proved equal to tables of quantity/method (ObsDispSpec.v) for all strings, the grids equal to an inventory (GridSpec.v) for all splits, and both combined to coverage |
| C142-C146 | bh_bhfiller.c, bh_bhf_*.c and the extrapolants of star_NS_surface.c by hand (FillerModel.v, FillerNames.v) | the Chebyshev sum is brought to monomial form, each extrapolant to (a + b/r + c/r^2) exp(-k(r - r0)); derivatives by computation, gluing lemmas for one-sided joins; the kink by comparing one-sided limits |
| C147-C155 | bh_bh.c, sys_tune.c, the update rules of star_NS.c and the surface search of star_NS_surface.c by hand (ControlModel.v), bh_expansion_of_AH.c generated (GenAH.v) | algebra over the reals; the radius iteration by induction with a contraction factor; the bracketing loops by induction on the rounds left; the history of searches by induction; the expansion against D_i S^i of the physical connection of ObsSpec.v |
| C156-C159 | solve_manager.c, eq_solve.c, the grid and weight look-ups of solve_eqs.c by hand (EqModel.v, EqRelax.v); the registrations of eq_main.c generated (GenEqTable.v, `tools/eqtab.py`) | the registry by induction over the calls, the program's table by evaluation; the relaxed loop as refinement of a round on the fields alone, by induction on fields, patches and rounds |
| C160-C162 | the words of sys_tune.c and star_NS.c (WordsModel.v), TOV start data and centring of star_NS.c (StarStart.v) | case analysis over the words for any text; derivatives along lines, Laplacian of 1/r, algebra |
| C163-C166 | phys_main.c (physics_main, init_physics, mygrid, phys_autoindex_stype), star_main.c, bh_main.c, Tij_main.c: enum and switches generated (GenCmd.v, `tools/cmdtab.py`), the rest by hand (PhysModel.v) | evaluation of the generated tables; regular expressions of plain words as splittings of texts, by induction on the text |
| C167-C168 | sys_main.c initialize_fields, superimpose_simple, fd_main.c populate_free_data with the update functions of fd_populate.c as operations (StartModel.v) | symbolic execution of the field programs over an arbitrary former store; case analysis over the words for any text |
| C169 | general.c norms (NormModel.v) | Cauchy-Schwarz and Minkowski by induction on the length |
| C170-C171 | derivatives.c partial_derivative, partial_derivative_regex (DerivModel.v); Partial_Derivative and regex_search arbitrary | reading the name as the inverse of building it; the loops flattened to one sequence of calls, induction over it |
| C172 | useful_functions.c interpolate_fields_from_old_grid_to_new_grid (TransferModel.v); search and interpolation arbitrary | both modes as one pass that puts values, induction over fields and patches |
| C173 | Poisson0: eq_alpha, bc_alpha, initial data, analysis reference and make_f (PoissonModel.v), Partial_Derivative's arrays arbitrary | values of the double and single loops; second derivatives of 1/sqrt(r^2+1) by uniqueness of limits |
| C174 | Poisson0: jacobian_eq_alpha, jacobian_bc_alpha, making_B_and_E with the DDM_SCHUR macros (PoissonModel.v); derivatives as matrices; layout from C87's numbering | affine residual, derivative at 0 along one node; reindexing of the sum over all nodes by the permutation inv |
| C175 | convergence_tests.c, pr_for_tests.c pr_field_difference (DiffModel.v), values as reals | norms of C169; induction over the patches with the running offset |
| C40 | function_managing.c, projects.c, choice of the project in main.c | list lemmas |
| C47-C50 | text tools: comparison, separators, regular-expression replacement for plain patterns | induction on strings |


## 4. Trusted base

* Coq 8.16.1 kernel and `coqc`; the `Print Assumptions` output under every theorem (section 5).
* The reading of the C code: that the definitions mean what the cited lines mean.
* libc behaviour written into the model (`strtok`-like code is modelled literally, `atoi`/`%d` as decimal codecs,
  `strtod`/`%.20e` as abstract functions; `regcomp/regexec` only for patterns without special characters).
* Numeric theorems are about exact real arithmetic: rounding, overflow to infinity and NaN propagation of IEEE doubles are not
  modelled, except that a division by zero is kept visible as "no finite number", and the places where an `int`/`Uint`
  computation overflows are refuted or excluded explicitly.
* The generated models (`Gen*.v`) treat C division as total real division (theorems assume the divisors non-zero) and read the
  literals with 16 or more digits that SymPy printed (0.33333333333333331) as the nearest small rational (1/3). The translator
  itself (250 lines of Python) is trusted to transcribe expressions; its output is plain and can be compared with the C text.
* External programs: UMFPACK appears only as the hypothesis "the solver solves" (C37); the shell (`mkdir`) as an oracle.

### Modelled

The functions named in the model files (grep "\.c:" in `rocq/theories/*Model.v` for the list with line numbers). In short:
parameter database, parameter file reader, text tools, checkpoints, folders, field pool and coefficient cache, patch and face
indices, matrix storage/conversion/algebra, 3x3 algebra and transformations, Chebyshev spectral transforms, interpolation,
derivatives and their Jacobians, whole-patch interpolation/filter/integration, 1-d quadratures, root finders, registries, equations of state, 1-d Neville/spline/Hermite interpolation and finite differences, Cartesian and cubed-spherical patch coordinates (surface interpolants are parameters), the Schur-complement Newton solver (UMFPACK, the equations and the derivative/interpolation operators are parameters), pointwise tensor code of Diff_Geom, black hole fillers and star extrapolants, the update rules of the control loops, the registry of equations, the solving manager and the relaxed outer loop, the star's start data and centring.

### Not modelled

Grid construction beyond names, tags and the list of patches (patch parameters, surface fields, interfaces), OpenMP parallel loops (the sequential meaning
is modelled), the sum of two Kerr-Schild holes and the spectral derivatives in the free-data updates, central-density adjustment of the star, the domain loops around the fillers, the contents of the 42 physics functions not named above, project drivers, output (HDF5/silo printing), UMFPACK itself, memory
allocation failure and freeing.

## 5. Axioms

`AXIOMS.md` lists them per theorem. Theorems about strings, databases, files and indices are closed under the global context.
Theorems about real numbers use only axioms of the standard library's `Reals`: `ClassicalDedekindReals.sig_forall_dec`,
`ClassicalDedekindReals.sig_not_dec`, `FunctionalExtensionality.functional_extensionality_dep`, and for some of them
`Classical_Prop.classic`. No axiom is declared in this development.

## 6. Findings (each is a `_refuted` theorem)

* C05 a default set on an existing empty parameter leaves a stale numeric value.
* C08 `v(x1)` dereferences a null pointer.
* C15 a file ending inside a comment loses its last character; a file that is one comment reads before the buffer.
* C17 a leading separator duplicates a single item; a line `=b` defines `b=b`.
* C21 a new iterative parameter given as `modify:name` keeps its first value only.
* C22 cut checkpoints can make the soundness check read uninitialised memory.
* C23 `open_folder` never reopens a folder made by `make_folder`.
* C25 values stored behind the field macros (as the checkpoint reader does) give stale coefficients.
* C30, C46 casts to 32 bits: invalid matrix / write past the block for huge matrices.
* C31, C35 the plain sparse lookup reads past the arrays when a lower-right entry is missing.
* C33 casting a regular matrix to regular format returns the zero matrix.
* C36 the 3x3 inverse formula divides by the first entry.
* C37 the "Gauss-Seidel" preconditioner uses rows it has already replaced.
* C38 the cosine sum divides by zero at multiples of 2 pi other than 0 and 2 pi.
* C39 on MAX_ITER bisection leaves 0 as the solution; C60 OK does not mean a root, giving up may store a worse point, zero tolerance may loop.
* C43 a dot only in the directory part runs past the buffers.
* C48 a format whose last delimiter occurs earlier is never accepted; C49 anchored patterns are replaced repeatedly.
* C52 tiny boosts are not Lorentz transformations; C53 the passive rotation does not undo two angles; C54 division by zero on the yz plane.
* C57, C58 `int` products overflow from 217 / 1026 points.
* C67 the Gauss quadratures compute Factorial(2n) in `int` for an error estimate: undefined behaviour from 7 (Lobatto: 8) points on.
* (not a theorem) `plan_integration` sets no function for a whole-volume integral on a coordinate system other than Cartesian/CubedSpherical: a null call.
* C69 negative density below h = 1; C70 infinite derivatives at h = 1 for Gamma > 2; C72 the program stops at exactly 1e-12 below an inner threshold.
* C73 the order check skips the last threshold; one-piece tables and short threshold lists read out of bounds.
* C74 tables with fewer than four rows read out of bounds; C75 the tabular derivatives forget the shift.
* C76 Neville with `max` points: a stride that divides max-1 uses one point twice (division by zero, e.g. N = 20, max = 7), and the last point is x[max-1] instead of x[N-1].
* C77 exactly 1e-12 right of a given point the spline says "outside"; C80 the spline EoS is vacuum beyond h = 2.
* C78 Hermite interpolation refuses the last data point, and its derivative is not the derivative of the interpolant.
* C79 Fornberg: the out-of-domain check can never fire; N+1 points are refused although they suffice; accuracy 0 reads unset weights.
* C81 a point up to 1e-8 outside the outer surface is accepted, its third coordinate is clamped after the check: the round trip misses it by up to 1e-8; a point exactly 1e-8 inside a face is in no patch.
* C82 `x_of_X`/`X_in_which_patch` never compare X0, X1 with the patch box: (5,0,0) is accepted.
* C83 the OT_T_SCS Jacobian takes the radii as constant.
* C84 `arctan` drops |y| < 1e-12; `arctan_argument_signum` (and the search by angles) ends the program for phi in [2 pi - 1e-12, 2 pi) and phi = 1e-12.
* C85 `find_node` never finds a node exactly at x when |x| <= 1.0001 (tolerance equal to the comparison width), and returns the last node within a creeping tolerance rather than the nearest.
* C86 the sparse format drops entries up to limit + 1e-12, also when `matrix_ccs_drop_below` is 0 or absent.
* C91 a NaN residual of a later patch is hidden while an earlier patch has a residual above the goal.
* C92 a patch without interface points passes the check and is dereferenced as null; a collocated continuity node that is not an interface node of the neighbour indexes C[i][UINT_MAX]; a patch adjacent to itself frees its partial g twice; `making_F_and_C_Regular` (Jacobian test) writes through the null row-major array.
* C95 `fd_populate_gConf_igConf_dgConf_ConfKerrSchild` tests `if (g)` where the comment wants `if (!g)`: a given metric is overwritten by Kerr-Schild, a null stem is handed to sprintf.
* C102 `eq_XCTS_crv_T3_ddm_Jac_bc_phi.c` contracts the normal with the conformal metric, the residual `T3_ddm_bc_phi.c` does not: the matrix is wrong unless the metric is flat; the T3 residual also lacks the factor h in front of u0 beta; inner boundary rows of phi are zero.
* C104 `Tij_NS_ifluid_xcts_gConf_enthalpy.c` squares beta.dphi - C, so for an Euler constant above beta.dphi it stores the enthalpy of the mirrored constant.
* C105 `star_NS_ifluid_gConf_force_bal.c:78` has `B1_U2 = 0` where `adm_updates.c:331` has v_r (z - z_CM)/D: with an infall velocity and a star off the orbital plane the force balance uses another shift than the rest of the code.
* C107-C109 the backward Fourier transform and the interpolation count the mode n/2 twice when n is even: 1, -1 comes back as 2, -2; on the sphere the theta count is always even. From 92683 points on `m*i` wraps in `r2cft_1d_EquiSpaced_coeffs`.
* C111 `d_associated_legendre_dtheta` computes (l+m)(l-m+1) in an int: overflow from l = 46341 on.
* C112 `get_Ylm_coeffs` with seven or more theta points (the recommended count for Lmax >= 3) computes (2n)! in an int inside every quadrature: undefined behaviour; the value only feeds the error estimate.
* C114 `r_approx` lacks the factor 1/h_c in r^2: against every regular solution r_approx^2/r^2 tends to h_c, so the start radius is off by sqrt(h_c) at any resolution (`m_approx` inherits it); `c_rbar` sets the integrand at the centre to 0 although its limit is -e/((e+3p)h_c), an O(step) error in the constant.
* C115 a mass above the maximum mass returns the star of h = 1.5*1.25^999 (in exact arithmetic) with status 1 and bar_m replaced; `multiple_tov` ignores the status and tabulates the requested mass beside that star's radius, and for a zero mass it dereferences the null arrays of the star that was not computed.
* C116 the tutorial offers `generic_MT_safe` for BNS, but `elliptica_id_reader_interpolate` stops for it; `get_param_dbl` gives a null pointer to strtod for a parameter that only has an array, and it reads the printed text of a parameter, never its double.
* C117 `idr_interpolate_fields_and_save_in_array` does not compare the lengths of the two lists of names: one evolution name too few is a null pointer in strcmp; the file version writes a block without name (C118). A negative npoints becomes a huge unsigned count.
* C118 a first line of 998 or more characters in the coordinate file is cut by fgets, and its rest is parsed as binary data.
* C119 `fd_KerrSchild_set_params` compares |v|^2 (not |v|) with 1e-12, so boosts below 1e-6 are silently dropped; the check of |chi| <= 1 uses a macro that refuses the single value 1 - 1e-12.
* C120 a hole at rest gets B2 = 1e-14 so that kt = 1/sqrt(1-1e-14), a relative error of 5e-15 in lapse and shift.
* C122 `dddH` in fd_KerrSchild_H_K0_K1_K2.c lost the coefficient 120 of the terms with D0D1D2, D0D2D1 and D1D2D0: the generator script removes `1.0*` with the pattern `\b1.0\*\b`, whose unescaped dot also matches the text 120*. The error reaches the mixed third derivatives of the metric (`fd_kerr_schild_dddg_analytic`, no caller at this commit).
* C123 fd_KerrSchild_BH_surface.c:13 uses M + sqrt(M^2 + a^2) instead of M + sqrt(M^2 - a^2); Delta there is 2a^2, outside the horizon.
* C124 `bh_start_off_CloseKerrSchild_perfect_s2` stores the irreducible mass as Christodoulou mass; with |chi| = 0.9 the spin parameter exceeds it. A |chi| in (1, 1+1e-12] passes the check and gives NaN.
* C125 for a boosted hole `fd_KerrSchild_Kij_trK.c` leaves out the time derivative of the metric in K_ij (it is v^k d_k gamma_ij, not zero).
* C128 `arctan` snaps an |x| or |y| below 1e-12 to 0, so the Painleve-Gullstrand shift is turned there by up to 1e-12/r.

- Observe (C134): the Ossokine form pairs psi^10 (K^ij - gamma^ij K) with the volume term -G^i, which is its *coordinate* divergence, but obs_calculate.c integrates both with the physical metric psi^4 g; with a split outermost region (S at the inner face plus V) the parts do not combine to the flux at infinity (C134_ossokine_refuted).
- Observe (C135): n_physical_metric_around / n_conformal_metric_around normalise the *covariant* components dc/dx^i and use them as a vector without raising the index; for conformal metrics that are not flat (Kerr-Schild free data) the result is not normal to the surface (C135_normals_refuted).
- Observe (C139): with the method S+V,constraint the momentum of NS-NS and NS grids integrates the volume of the stars *and* the surfaces around them (obs_calculate.c:1468-1545 names the stars in the volume region; J of the same method does not): double counting (C139_coverage_refuted).
- Observe (C139): calc_ADM_P never lists BH-BH in the check of the volume items (obs_calculate.c:1710-1763), so ADM(P)|BHBH with S+V,Rashti, S+V,constraint or (split outermost) S+V,Ossokine always stops (C139_bhbh_refuted); the constraint row of BH-BH would moreover select the volume regions NS_around, BH_around that such a grid does not have.
- Observe (C137): Komar(M)|BH, BH1, BH2 ignore the method; S+V,Ossokine of J has no volume part although its surface moves to the inner face of a split outermost region.
- Manifold (C136): "BH_OB", "BH1_OB", "BH2_OB" and "central_box" are tags of patches but not words of the dictionary, so asking for them stops the program.
- Black hole filler (C144): for a field whose name starts with an underscore and has no index, collect_names (bh_bhfiller.c:1013, star_NS_surface.c:487) writes df[0] three times; df[1] and df[2] stay empty and df[0] names the z-derivative (C144_names_refuted).
- Black hole filler (C146): approx_expmr_C0 and approx_r_expmr_C1 use fabs(r - r0) where their comments have r - r0: the field grows inwards by e instead of decaying, and the filler called C1 has a kink at the surface (C146_decay_refuted, C146_C1_refuted).
- Star (C152): the loops that search the bracket stop within 1e-12 of h = 1 but the tests after them compare with 0, so a lattice point within 1e-12 of the surface on the wrong side interrupts the search (C152_roundoff_refuted); C153: surface_num_fail is never reset, so the limit counts isolated failures of a whole run (C153_reset_refuted).
- Star (C151): force_balance_eq_root_finders updates the parameter even if the root finder failed; find_EulerC does not.
- Black hole (C154): bh_sConf is x^i/r divided by its norm: unit, but not normal to the horizon sphere unless the conformal metric is flat (C154_normal_refuted).
- Solver (C158): without a prefix (the tests of the module call the solver so) `initialize_solving_man` leaves the alias empty, and the solver looks up the field named by the alias: the program stops (C158_alias_refuted). A region that merely contains ".*" (for example "NS1_.*") is the whole grid.
- Equation (C159): backup and relaxation use the names of solve_Order; for an aliased field (phi1 standing for phi) they find no such field in the patch and silently skip it, so EQ_update_weight_phi1 has no effect (C159_alias_refuted). A field named twice is relaxed twice (C159_twice_refuted).
- System (C160): "adjust(x_CM,x_CM,none)" applies the correction of one measured momentum twice; "x_CM none", "adjust()", a missing parenthesis and words in excess are accepted (C160_twice_refuted, C160_loose_refuted).
- Star (C161): the first velocity potential lacks the y component Omega (c_x - x_CM) of the orbital velocity, so it is that of the orbit only for a star at x = x_CM.
- System (C167): for two holes the first guess of each shift component is beta1 + beta2 - 1 (sys_main.c:230-235, 274-279), the rule of psi: it tends to -1 far away and is exactly -1 for isotropic holes (C167_shift_refuted).
- Physics (C165): the second star asking for "BH_around" silently gets "NS2_around"; adjusted texts of 99 characters or more overrun the buffer of 99 (C165_careless_refuted).
- Physics (C164): places are not checked against each other: both stars may be left, and "right, not left" counts as left (C164_loose_refuted).
- Free data (C168): for NS-NS, BH-BH and single stars only the word "flat" is accepted, while the defaults of the parameters are those of Kerr-Schild (C168_words).
- Derivatives (C170): the last index is not looked at, so any name that starts with d and ends in 0, 1 or 2 is taken for a derivative ("dpsi_U0", "density0"); a name of 100 characters or more overruns dfield_name (C170_loose_refuted, C170_safe).
- Derivatives (C171): an expression that matches first and second derivatives leaves, in an unlucky order of the fields, second derivatives of old values without an error (C171_stale_refuted); the comment in the code warns of it.
- Utilities (C172): the checks of a copy are inside the loop over the fields (C172_unchecked_refuted).
- General (C169): L2_norm of no entries is 0/0 even for two null pointers, L1_norm is 0 there (C169_empty).
