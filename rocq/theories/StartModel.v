(** StartModel.v - the first guess of the fields of a system and the free data, as programs over named fields.
    Models Src/Main/Modules/Physics/System/sys_main.c (initialize_fields), Utilities/useful_functions.c (superimpose_simple)
    and Physics/Free_Data/fd_main.c (populate_free_data) with the functions of fd_populate.c it calls.
    SIMPLIFICATIONS: the analytic solutions, the Christoffel symbols, Ricci tensor, inverses and derivatives are given
    functions here (their own models: KsModel.v, FreeModel.v, StarStart.v, Tensor...); exact reals; one node of the grid for
    the first guess; temporary fields made and removed inside one called function are left out; FD_ and SYS_ parameters are
    given by their values. *)
From Coq Require Import Reals.
From Verif Require Import Base TextModel PhysModel.
Open Scope list_scope.
Local Open Scope string_scope.
Local Notation store_of A := (string -> A).
Definition upd {A} (st : store_of A) (n : string) (v : A) : store_of A := fun m => if String.eqb m n then v else st m.
Definition same (w x : string) : bool := strcmp_i (Some (S_ w)) (Some (S_ x)).

(** *** the first guess: a field of the node's patch may exist or not, and have memory or not *)
Definition fields := string -> option (option R).
Inductive act :=
| Add (n : string)                             (* add_field without memory *)
| Remove (n : string)                          (* remove_field(patch->fields[Ind(n)]) *)
| Put (n : string) (v : R)                     (* REALLOC_v_WRITE_v_STEM and a value *)
| Sum (n : string) (a b : option string) (extra : R).   (* superimpose_simple *)
(** field.c:21-63 (an existing name stops the program), Ind field.c:174-187 (a missing name too) *)
Definition fetch (st : fields) (n : string) : outcome R :=
  match st n with None => Abort | Some None => UB | Some (Some v) => Ok v end.
Definition put (st : fields) (n : string) (v : R) : outcome fields :=
  match st n with None => Abort | Some _ => Ok (upd st n (Some (Some v))) end.
(** superimpose_simple, useful_functions.c:794-833 *)
Definition superimpose_simple (st : fields) (f : string) (f1 f2 : option string) (extra : R) : outcome fields :=
  match f1, f2 with
  | None, None => put st f extra
  | Some a, Some b => do x <- fetch st a; do y <- fetch st b; put st f (x + y + extra)%R
  | _, _ => Abort
  end.
Definition do_act (a : act) (st : fields) : outcome fields :=
  match a with
  | Add n => match st n with Some _ => Abort | None => Ok (upd st n (Some None)) end
  | Remove n => match st n with None => Abort | Some _ => Ok (upd st n None) end
  | Put n v => put st n v
  | Sum f f1 f2 e => superimpose_simple st f f1 f2 e
  end.
Fixpoint run (l : list act) (st : fields) : outcome fields :=
  match l with [] => Ok st | a :: l => do st <- do_act a st; run l st end.

(** what the analytic solutions are at the node *)
Record bhsol := mkbh { b_psi : R; b_alphaPsi : R; b_beta0 : R; b_beta1 : R; b_beta2 : R }.
(** ... s_inside: the node is in a patch of the star; s_W what star_W_spin_vector_idealfluid_update writes *)
Record nssol := mkns { s_psi : R; s_alphaPsi : R; s_inside : bool; s_h : R; s_rho0 : R; s_phi : R; s_W0 : R; s_W1 : R; s_W2 : R }.
Inductive bhkind := KerrSchild | ConfKerrSchild | IsoSchild | PGSchild.
Section First.
Variable bh : bhkind -> obj -> bhsol.
Variable ns : obj -> nssol.
(** fd_populate_psi_alphaPsi_beta_..., fd_populate.c:760-838, 928-1015, 1116-1214 *)
Definition populate_bh (k : bhkind) (o : obj) (psi alphaPsi beta : string) : list act :=
  let s := bh k o in
  [Put psi (b_psi s); Put alphaPsi (b_alphaPsi s); Put (beta ++ "_U0") (b_beta0 s); Put (beta ++ "_U1") (b_beta1 s); Put (beta ++ "_U2") (b_beta2 s)].
(** star_populate_psi_alphaPsi_matter_fields_TOV, star_NS.c:1054-1171, with star_W_spin_vector_idealfluid_update *)
Definition populate_ns (o : obj) (psi alphaPsi : string) : list act :=
  let s := ns o in
  let W := [Put "W_U0" (s_W0 s); Put "W_U1" (s_W1 s); Put "W_U2" (s_W2 s)] in
  [Put psi (s_psi s); Put alphaPsi (s_alphaPsi s)] ++
  (if s_inside s then [Put "enthalpy" (s_h s); Put "rho0" (s_rho0 s); Put "phi" (s_phi s)] ++ W ++ W else [])%list.
Definition sum2 (f a b : string) : act := Sum f (Some a) (Some b) (-1)%R.
Definition no_shift : list act := [Sum "beta_U0" None None 0%R; Sum "beta_U1" None None 0%R; Sum "beta_U2" None None 0%R].
Definition adds (l : list string) : list act := map Add l.
Definition removes (l : list string) : list act := map Remove l.
(** sys_main.c:120-160, :161-204: a hole and a star; [t] the letters of the solution's auxiliary fields *)
Definition bhns (k : bhkind) (t : string) : list act :=
  let aux := ["psi_" ++ t; "alphaPsi_" ++ t; "psi_tov"; "alphaPsi_tov"] in
  (adds aux ++ populate_bh k BH ("psi_" ++ t) ("alphaPsi_" ++ t) "beta" ++ populate_ns NS "psi_tov" "alphaPsi_tov" ++
   [sum2 "psi" "psi_tov" ("psi_" ++ t); sum2 "alphaPsi" "alphaPsi_tov" ("alphaPsi_" ++ t)] ++ removes aux)%list.
(** sys_main.c:205-248, :249-292: two holes *)
Definition bhbh (k : bhkind) : list act :=
  let aux := ["psi_bh1"; "alphaPsi_bh1"; "beta_bh1_U0"; "beta_bh1_U1"; "beta_bh1_U2"; "psi_bh2"; "alphaPsi_bh2"; "beta_bh2_U0"; "beta_bh2_U1"; "beta_bh2_U2"] in
  (adds aux ++ populate_bh k BH1 "psi_bh1" "alphaPsi_bh1" "beta_bh1" ++ populate_bh k BH2 "psi_bh2" "alphaPsi_bh2" "beta_bh2" ++
   [sum2 "psi" "psi_bh1" "psi_bh2"; sum2 "alphaPsi" "alphaPsi_bh1" "alphaPsi_bh2"; sum2 "beta_U0" "beta_bh1_U0" "beta_bh2_U0";
    sum2 "beta_U1" "beta_bh1_U1" "beta_bh2_U1"; sum2 "beta_U2" "beta_bh1_U2" "beta_bh2_U2"] ++ removes aux)%list.
(** sys_main.c:293-338: two stars *)
Definition nsns : list act :=
  let aux := ["psi_tov1"; "alphaPsi_tov1"; "psi_tov2"; "alphaPsi_tov2"] in
  (adds aux ++ populate_ns NS1 "psi_tov1" "alphaPsi_tov1" ++ populate_ns NS2 "psi_tov2" "alphaPsi_tov2" ++
   [sum2 "psi" "psi_tov1" "psi_tov2"; sum2 "alphaPsi" "alphaPsi_tov1" "alphaPsi_tov2"] ++ no_shift ++ removes aux)%list.
(** sys_main.c:57-372 initialize_fields: the system, the parameters "initialize" and "initialize_fields" *)
Definition initialize_fields (sys : obj) (how what : string) : outcome (list act) :=
  let xcts (l : list act) := if same what "XCTS" then Ok l else Abort in
  match sys with
  | SBH => if same how "one_exact_KerrSchild" then xcts (populate_bh KerrSchild BH "psi" "alphaPsi" "beta")
           else if same how "one_exact_ConfKerrSchild" then xcts (populate_bh ConfKerrSchild BH "psi" "alphaPsi" "beta")
           else if same how "one_exact_IsoSchild" then xcts (populate_bh IsoSchild BH "psi" "alphaPsi" "beta")
           else if same how "one_exact_PGSchild" then xcts (populate_bh PGSchild BH "psi" "alphaPsi" "beta")
           else Abort
  | BHNS => if same how "TOV+KerrSchild" then xcts (bhns KerrSchild "ks")
            else if same how "TOV+IsoSchild" then xcts (bhns IsoSchild "is")
            else Abort
  | BHBH => if same how "KerrSchild+KerrSchild" then xcts (bhbh KerrSchild)
            else if same how "IsoSchild+IsoSchild" then xcts (bhbh IsoSchild)
            else Abort
  | NSNS => if same how "TOV+TOV" then xcts nsns else Abort
  | SNS => if same how "TOV" then xcts (populate_ns NS "psi" "alphaPsi" ++ no_shift)%list else Abort
  | _ => Abort
  end.
End First.

(** *** the free data.  A name stands for all components of that stem on all patches, [V] for their values *)
Section Free.
Variable V : Type.
(** the Kerr-Schild metric and its analytic derivatives; delta_ij and delta^ij; zero; Painleve-Gullstrand K_ij and its trace *)
Variables KSg KSdg delta idelta zero PGK PGtr : V.
(** inverse; partial derivatives; w1*flat+w2*g; w*trK; the metric of unit determinant and its inverse, made from a metric *)
Variables inv der blend wK unimod unimod_i : V -> V.
(** Christoffel symbols of (ig,dg); Ricci tensor and its trace of (ig,Chris,dChris); Kerr-Schild K_ij and trace of (ig,Chris) *)
Variables chris KSK KStr : V -> V -> V.
Variables ricci tr_ricci : V -> V -> V -> V.
Definition fstore := string -> V.
(** fd_populate.c:360-422 *)
Definition metric_KS (st : fstore) : fstore :=
  let st := upd st "gConf" KSg in let st := upd st "dgConf" KSdg in upd st "igConf" (inv (st "gConf")).
(** fd_populate.c:696-752 (also IsoSchild :653-668 and PGSchild :675-690) *)
Definition metric_flat (st : fstore) : fstore :=
  let st := upd st "gConf" delta in let st := upd st "igConf" idelta in upd st "dgConf" (der (st "gConf")).
(** fd_populate.c:599-648 as called with g = gConf: gConf is made again, then scaled *)
Definition metric_ConfKS (st : fstore) : fstore :=
  let st := upd st "gConf" KSg in
  let g := st "gConf" in
  let st := upd st "gConf" (unimod g) in let st := upd st "igConf" (unimod_i g) in upd st "dgConf" (der (st "gConf")).
(** fd_populate.c:429-527 *)
Definition metric_blend (st : fstore) : fstore :=
  let st := upd st "gConf" (blend (st "gConf")) in let st := upd st "dgConf" (der (st "gConf")) in upd st "igConf" (inv (st "gConf")).
(** fd_populate.c:315-336, :338-356, :291-313 *)
Definition christoffel (st : fstore) : fstore := upd st "ChrisConf" (chris (st "igConf") (st "dgConf")).
Definition dchristoffel (st : fstore) : fstore := upd st "dChrisConf" (der (st "ChrisConf")).
Definition conf_ricci (st : fstore) : fstore :=
  let i := st "igConf" in let c := st "ChrisConf" in let d := st "dChrisConf" in upd (upd st "RicciConf" (ricci i c d)) "trRicciConf" (tr_ricci i c d).
(** fd_populate.c:13-47; [dtr]: dtrK was asked for *)
Definition curvature_KS (dtr : bool) (st : fstore) : fstore :=
  let i := st "igConf" in let c := st "ChrisConf" in
  let st := upd (upd st "adm_Kij" (KSK i c)) "trK" (KStr i c) in
  if dtr then upd st "dtrK" (der (st "trK")) else st.
(** fd_populate.c:82-99 with :244-288; :179-241; :50-79; :536-594 *)
Definition curvature_flat (st : fstore) : fstore := upd (upd (upd st "adm_Kij" zero) "trK" zero) "dtrK" zero.
Definition curvature_PG (st : fstore) : fstore :=
  let st := upd (upd st "adm_Kij" PGK) "trK" PGtr in upd st "dtrK" (der (st "trK")).
Definition trace_zero (st : fstore) : fstore := let st := upd st "trK" zero in upd st "dtrK" (der (st "trK")).
Definition trace_w (st : fstore) : fstore := let st := upd st "trK" (wK (st "trK")) in upd st "dtrK" (der (st "trK")).

(** fd_main.c:140-303 populate_free_data: the five words conformal_metric, conformal_Christoffel_symbol, conformal_Ricci, trK, MConfIJ *)
Definition populate_free_data (sys : obj) (m c r k z : string) (st : fstore) : outcome fstore :=
  let words (a b d e : string) := same m a && same c b && same r d && same k e && same z "zero" in
  let sbh := match sys with SBH => true | _ => false end in
  let all a := words a a a a in
  if sbh && all "KerrSchild" then
    Ok (curvature_KS true (conf_ricci (dchristoffel (christoffel (metric_KS st)))))
  else if sbh && all "IsoSchild" then
    Ok (curvature_flat (conf_ricci (dchristoffel (christoffel (metric_flat st)))))
  else if sbh && all "PGSchild" then
    Ok (curvature_PG (conf_ricci (dchristoffel (christoffel (metric_flat st)))))
  else if sbh && words "ConfKerrSchild" "ConfKerrSchild" "ConfKerrSchild" "KerrSchild" then
    let st := curvature_KS true (christoffel (metric_KS st)) in
    Ok (conf_ricci (dchristoffel (christoffel (metric_ConfKS st))))
  else if match sys with BHNS => true | _ => false end
          && words "w1*flat+w2*KerrSchild" "w1*flat+w2*KerrSchild" "w1*flat+w2*KerrSchild" "w*KerrSchild" then
    let st := curvature_KS false (christoffel (metric_KS st)) in
    let st := conf_ricci (dchristoffel (christoffel (metric_blend st))) in
    Ok (trace_w st)
  else if words "flat" "flat" "flat" "zero" then
    Ok (trace_zero (conf_ricci (dchristoffel (christoffel (metric_flat st)))))
  else Abort.
End Free.
