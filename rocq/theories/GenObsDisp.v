(* Generated by tools/obsdisp.py from /repo/Src/Main/Modules/Physics/Observe/obs_calculate.c: do not edit. *)
From Verif Require Import Base TextModel RegionModel.
Open Scope string_scope.

(* IFsc / IsIt, obs_calculate.h:10,13 *)
Definition is (s : str) (x : string) : bool := strcmp_i (Some s) (Some (S_ x)).
(* obs_calculate.h:16-33, n1: grid_SplitCS_Nsplit_c == 1 *)
Definition collect_outermost (n1 : bool) : outcome (option str * option str) :=
  if n1 then Ok (None, Some (S_ "outermost_OB")) else Ok (Some (S_ "outermost_OB"), Some (S_ "outermost_OB")).
(* K = 0 or K = n[2]-1 *)
Inductive face := First | Last.
(* obs_calculate.h:36-48 *)
Definition split_face (n1 : bool) : face := if n1 then Last else First.
(* metric psi^4 gConf or gConf *)
Inductive metric := Phys | Conf.
(* the functions called at the end of the four functions *)
Inductive formula := NoFormula | F_obs_ADM_P_S_default | F_obs_ADM_P_Stokes_SV_Ossokine | F_obs_ADM_P_Stokes_SV_Rashti | F_obs_ADM_P_Stokes_SV_constraint | F_obs_ADM_J_S_default | F_obs_ADM_J_Stokes_SV_Ossokine | F_obs_ADM_J_Stokes_SV_constraint | F_obs_ADM_mass_SV_isotropic | F_obs_ADM_mass_SV_conformal | F_obs_ADM_mass_S2 | F_obs_Komar_mass.

(* obs_calculate.c:1376-1659 *)
Definition collect_P (k : kind) (q m : str) (n1 : bool) : outcome (option str * option str) :=
  if kind_in k [K_SCS_BHNS; K_SCS_NSNS; K_SCS_BHBH; K_SCS_SBH; K_SCS_SNS] then
    if is q "ADM(P)|BHNS" then
      if is m "S_inf,default" then
        Ok (None, Some (S_ "outermost_OB"))
      else
      if is m "S+V,Ossokine" then
        collect_outermost n1
      else
      if is m "S+V,Rashti" then
        Ok (Some (S_ "outermost,filling_box,NS_around,NS,BH_around"), Some (S_ "BH_around_IB"))
      else
      if is m "S+V,constraint" then
        Ok (Some (S_ "outermost,filling_box,NS_around,BH_around"), Some (S_ "NS_around_IB,BH_around_IB"))
      else
      if is m "S_obj1+S_obj2,default" then
        Ok (None, Some (S_ "NS_OB,BH_around_IB"))
      else
      Abort
    else
    if is q "ADM(P)|BHBH" then
      if is m "S_inf,default" then
        Ok (None, Some (S_ "outermost_OB"))
      else
      if is m "S+V,Ossokine" then
        collect_outermost n1
      else
      if is m "S+V,Rashti" then
        Ok (Some (S_ "outermost,filling_box,BH1_around,BH2_around"), Some (S_ "BH1_around_IB,BH2_around_IB"))
      else
      if is m "S+V,constraint" then
        Ok (Some (S_ "outermost,filling_box,NS_around,BH_around"), Some (S_ "BH1_around_IB,BH2_around_IB"))
      else
      if is m "S_obj1+S_obj2,default" then
        Ok (None, Some (S_ "BH1_around_IB,BH2_around_IB"))
      else
      Abort
    else
    if is q "ADM(P)|NSNS" then
      if is m "S_inf,default" then
        Ok (None, Some (S_ "outermost_OB"))
      else
      if is m "S+V,Ossokine" then
        collect_outermost n1
      else
      if is m "S+V,Rashti" then
        Ok (Some (S_ "outermost,filling_box,NS1_around,NS1,NS2_around,NS2"), None)
      else
      if is m "S+V,constraint" then
        Ok (Some (S_ "outermost,filling_box,NS1_around,NS1,NS2_around,NS2"), Some (S_ "NS1_around_IB,NS2_around_IB"))
      else
      if is m "S_obj1+S_obj2,default" then
        Ok (None, Some (S_ "NS1_OB,NS2_OB,"))
      else
      Abort
    else
    if is q "ADM(P)|SNS" then
      if is m "S_inf,default" then
        Ok (None, Some (S_ "outermost_OB"))
      else
      if is m "S+V,Ossokine" then
        collect_outermost n1
      else
      if is m "S+V,Rashti" then
        Ok (Some (S_ "outermost,filling_box,NS_around,NS"), None)
      else
      if is m "S+V,constraint" then
        Ok (Some (S_ "outermost,filling_box,NS_around,NS"), Some (S_ "NS_around_IB"))
      else
      if is m "S_obj,default" then
        Ok (None, Some (S_ "NS_OB"))
      else
      Abort
    else
    if is q "ADM(P)|NS" then
      if is m "S_obj,default" then
        Ok (None, Some (S_ "NS_OB"))
      else
      Abort
    else
    if is q "ADM(P)|NS1" then
      if is m "S_obj,default" then
        Ok (None, Some (S_ "NS1_OB"))
      else
      Abort
    else
    if is q "ADM(P)|NS2" then
      if is m "S_obj,default" then
        Ok (None, Some (S_ "NS2_OB"))
      else
      Abort
    else
    if is q "ADM(P)|BH" then
      if is m "S_obj,default" then
        Ok (None, Some (S_ "BH_around_IB"))
      else
      Abort
    else
    if is q "ADM(P)|BH1" then
      if is m "S_obj,default" then
        Ok (None, Some (S_ "BH1_around_IB"))
      else
      Abort
    else
    if is q "ADM(P)|BH2" then
      if is m "S_obj,default" then
        Ok (None, Some (S_ "BH2_around_IB"))
      else
      Abort
    else
    if is q "ADM(P)|SBH" then
      if is m "S_inf,default" then
        Ok (None, Some (S_ "outermost_OB"))
      else
      if is m "S+V,Ossokine" then
        collect_outermost n1
      else
      if is m "S+V,Rashti" then
        Ok (Some (S_ "outermost,BH_around"), Some (S_ "BH_around_IB"))
      else
      Abort
    else
    Abort
  else
  Abort.

(* obs_calculate.c:1710-1763 *)
Definition volcheck_P (k : kind) (q : str) : outcome unit :=
  if kind_in k [K_SCS_BHNS; K_SCS_NSNS; K_SCS_SBH; K_SCS_SNS] then
    if is q "ADM(P)|BHNS" then
      Ok tt
    else
    if is q "ADM(P)|NSNS" then
      Ok tt
    else
    if is q "ADM(P)|SNS" then
      Ok tt
    else
    if is q "ADM(P)|NS" then
      Ok tt
    else
    if is q "ADM(P)|NS1" then
      Ok tt
    else
    if is q "ADM(P)|NS2" then
      Ok tt
    else
    if is q "ADM(P)|BH" then
      Ok tt
    else
    if is q "ADM(P)|BH1" then
      Ok tt
    else
    if is q "ADM(P)|BH2" then
      Ok tt
    else
    if is q "ADM(P)|SBH" then
      Ok tt
    else
    Abort
  else
  Abort.

(* obs_calculate.c:1809-2172 *)
Definition surf_P (k : kind) (q m : str) (n1 : bool) (cov : str -> outcome bool) : outcome (option (face * metric)) :=
  if kind_in k [K_SCS_BHNS; K_SCS_BHBH; K_SCS_NSNS; K_SCS_SBH; K_SCS_SNS] then
    if is q "ADM(P)|BHNS" then
      if is m "S_inf,default" then
        Ok (Some (Last, Phys))
      else
      if is m "S+V,Ossokine" then
        Ok (Some (split_face n1, Phys))
      else
      if is m "S+V,Rashti" then
        do b <- cov (S_ "BH_around_IB");
        if b then
          Ok (Some (First, Phys))
        else
        Abort
      else
      if is m "S+V,constraint" then
        do b <- cov (S_ "NS_around_IB,BH_around_IB");
        if b then
          Ok (Some (First, Phys))
        else
        Abort
      else
      if is m "S_obj1+S_obj2,default" then
        do b <- cov (S_ "BH_around_IB");
        if b then
          Ok (Some (First, Phys))
        else
        do b <- cov (S_ "NS_OB");
        if b then
          Ok (Some (Last, Phys))
        else
        Abort
      else
      Abort
    else
    if is q "ADM(P)|BHBH" then
      if is m "S_inf,default" then
        Ok (Some (Last, Phys))
      else
      if is m "S+V,Ossokine" then
        Ok (Some (split_face n1, Phys))
      else
      if is m "S+V,Rashti" then
        do b <- cov (S_ "BH1_around_IB,BH2_around_IB");
        if b then
          Ok (Some (First, Phys))
        else
        Abort
      else
      if is m "S+V,constraint" then
        do b <- cov (S_ "BH1_around_IB,BH2_around_IB");
        if b then
          Ok (Some (First, Phys))
        else
        Abort
      else
      if is m "S_obj1+S_obj2,default" then
        do b <- cov (S_ "BH1_around_IB,BH2_around_IB");
        if b then
          Ok (Some (First, Phys))
        else
        Abort
      else
      Abort
    else
    if is q "ADM(P)|NSNS" then
      if is m "S_inf,default" then
        Ok (Some (Last, Phys))
      else
      if is m "S+V,Ossokine" then
        Ok (Some (split_face n1, Phys))
      else
      if is m "S+V,Rashti" then
        Ok None
      else
      if is m "S+V,constraint" then
        do b <- cov (S_ "NS1_around_IB,NS2_around_IB");
        if b then
          Ok (Some (First, Phys))
        else
        Abort
      else
      if is m "S_obj1+S_obj2,default" then
        do b <- cov (S_ "NS1_OB");
        if b then
          Ok (Some (Last, Phys))
        else
        do b <- cov (S_ "NS2_OB");
        if b then
          Ok (Some (Last, Phys))
        else
        Abort
      else
      Abort
    else
    if is q "ADM(P)|SNS" then
      if is m "S_inf,default" then
        Ok (Some (Last, Phys))
      else
      if is m "S+V,Ossokine" then
        Ok (Some (split_face n1, Phys))
      else
      if is m "S+V,Rashti" then
        Ok None
      else
      if is m "S+V,constraint" then
        do b <- cov (S_ "NS_around_IB");
        if b then
          Ok (Some (First, Phys))
        else
        Abort
      else
      if is m "S_obj,default" then
        do b <- cov (S_ "NS_OB");
        if b then
          Ok (Some (Last, Phys))
        else
        Abort
      else
      Abort
    else
    if is q "ADM(P)|NS" then
      if is m "S_obj,default" then
        Ok (Some (Last, Phys))
      else
      Abort
    else
    if is q "ADM(P)|NS1" then
      if is m "S_obj,default" then
        Ok (Some (Last, Phys))
      else
      Abort
    else
    if is q "ADM(P)|NS2" then
      if is m "S_obj,default" then
        Ok (Some (Last, Phys))
      else
      Abort
    else
    if is q "ADM(P)|BH" then
      if is m "S_obj,default" then
        Ok (Some (First, Phys))
      else
      Abort
    else
    if is q "ADM(P)|BH1" then
      if is m "S_obj,default" then
        Ok (Some (First, Phys))
      else
      Abort
    else
    if is q "ADM(P)|BH2" then
      if is m "S_obj,default" then
        Ok (Some (First, Phys))
      else
      Abort
    else
    if is q "ADM(P)|SBH" then
      if is m "S_inf,default" then
        Ok (Some (Last, Phys))
      else
      if is m "S+V,Ossokine" then
        Ok (Some (split_face n1, Phys))
      else
      if is m "S+V,Rashti" then
        Ok (Some (First, Phys))
      else
      Abort
    else
    Abort
  else
  Abort.

(* obs_calculate.c:2177-2215 *)
Definition formula_P (k : kind) (m : str) : outcome formula :=
  if kind_in k [K_SCS_BHNS; K_SCS_NSNS; K_SCS_BHBH; K_SCS_SBH; K_SCS_SNS] then
    if is m "S_inf,default" then
      Ok F_obs_ADM_P_S_default
    else
    if is m "S_obj,default" then
      Ok F_obs_ADM_P_S_default
    else
    if is m "S_obj1+S_obj2,default" then
      Ok F_obs_ADM_P_S_default
    else
    if is m "S+V,Ossokine" then
      Ok F_obs_ADM_P_Stokes_SV_Ossokine
    else
    if is m "S+V,Rashti" then
      Ok F_obs_ADM_P_Stokes_SV_Rashti
    else
    if is m "S+V,constraint" then
      Ok F_obs_ADM_P_Stokes_SV_constraint
    else
    Abort
  else
  Abort.

(* obs_calculate.c:562-840 *)
Definition collect_J (k : kind) (q m : str) (n1 : bool) : outcome (option str * option str) :=
  if kind_in k [K_SCS_BHNS; K_SCS_NSNS; K_SCS_BHBH; K_SCS_SBH; K_SCS_SNS] then
    if is q "ADM(J)|BHNS" then
      if is m "S_inf,default" then
        Ok (None, Some (S_ "outermost_OB"))
      else
      if is m "S+V,Ossokine" then
        Ok (None, Some (S_ "outermost_OB"))
      else
      if is m "S+V,constraint" then
        Ok (Some (S_ "outermost,filling_box,NS_around,BH_around"), Some (S_ "NS_around_IB,BH_around_IB"))
      else
      if is m "S_obj1+S_obj2,default" then
        Ok (None, Some (S_ "NS_OB,BH_around_IB"))
      else
      Abort
    else
    if is q "ADM(J)|BHBH" then
      if is m "S_inf,default" then
        Ok (None, Some (S_ "outermost_OB"))
      else
      if is m "S+V,Ossokine" then
        Ok (None, Some (S_ "outermost_OB"))
      else
      if is m "S+V,constraint" then
        Ok (Some (S_ "outermost,filling_box,BH1_around,BH2_around"), Some (S_ "BH1_around_IB,BH2_around_IB"))
      else
      if is m "S_obj1+S_obj2,default" then
        Ok (None, Some (S_ "BH1_around_IB,BH2_around_IB"))
      else
      Abort
    else
    if is q "ADM(J)|NSNS" then
      if is m "S_inf,default" then
        Ok (None, Some (S_ "outermost_OB"))
      else
      if is m "S+V,Ossokine" then
        Ok (None, Some (S_ "outermost_OB"))
      else
      if is m "S+V,constraint" then
        Ok (Some (S_ "outermost,filling_box,NS1_around,NS2_around"), Some (S_ "NS1_around_IB,NS2_around_IB"))
      else
      if is m "S_obj1+S_obj2,default" then
        Ok (None, Some (S_ "NS1_OB,NS2_OB"))
      else
      Abort
    else
    if is q "ADM(J)|SNS" then
      if is m "S_inf,default" then
        Ok (None, Some (S_ "outermost_OB"))
      else
      if is m "S+V,Ossokine" then
        Ok (None, Some (S_ "outermost_OB"))
      else
      if is m "S+V,constraint" then
        Ok (Some (S_ "outermost,filling_box,NS_around"), Some (S_ "NS_around_IB"))
      else
      if is m "S_obj,default" then
        Ok (None, Some (S_ "NS_OB"))
      else
      Abort
    else
    if is q "ADM(J)|NS" then
      if is m "S_obj,default" then
        Ok (None, Some (S_ "NS_OB"))
      else
      Abort
    else
    if is q "ADM(J)|NS1" then
      if is m "S_obj,default" then
        Ok (None, Some (S_ "NS1_OB"))
      else
      Abort
    else
    if is q "ADM(J)|NS2" then
      if is m "S_obj,default" then
        Ok (None, Some (S_ "NS2_OB"))
      else
      Abort
    else
    if is q "ADM(J)|BH" then
      if is m "S_obj,default" then
        Ok (None, Some (S_ "BH_around_IB"))
      else
      Abort
    else
    if is q "ADM(J)|BH1" then
      if is m "S_obj,default" then
        Ok (None, Some (S_ "BH1_around_IB"))
      else
      Abort
    else
    if is q "ADM(J)|BH2" then
      if is m "S_obj,default" then
        Ok (None, Some (S_ "BH2_around_IB"))
      else
      Abort
    else
    if is q "ADM(J)|SBH" then
      if is m "S_inf,default" then
        Ok (None, Some (S_ "outermost_OB"))
      else
      if is m "S+V,Ossokine" then
        Ok (None, Some (S_ "outermost_OB"))
      else
      Abort
    else
    Abort
  else
  Abort.

(* obs_calculate.c:891-950 *)
Definition volcheck_J (k : kind) (q : str) : outcome unit :=
  if kind_in k [K_SCS_BHNS; K_SCS_NSNS; K_SCS_BHBH; K_SCS_SBH; K_SCS_SNS] then
    if is q "ADM(J)|BHNS" then
      Ok tt
    else
    if is q "ADM(J)|BHBH" then
      Ok tt
    else
    if is q "ADM(J)|NSNS" then
      Ok tt
    else
    if is q "ADM(J)|SNS" then
      Ok tt
    else
    if is q "ADM(J)|NS" then
      Ok tt
    else
    if is q "ADM(J)|NS1" then
      Ok tt
    else
    if is q "ADM(J)|NS2" then
      Ok tt
    else
    if is q "ADM(J)|BH" then
      Ok tt
    else
    if is q "ADM(J)|BH1" then
      Ok tt
    else
    if is q "ADM(J)|BH2" then
      Ok tt
    else
    if is q "ADM(J)|SBH" then
      Ok tt
    else
    Abort
  else
  Abort.

(* obs_calculate.c:996-1316 *)
Definition surf_J (k : kind) (q m : str) (n1 : bool) (cov : str -> outcome bool) : outcome (option (face * metric)) :=
  if kind_in k [K_SCS_BHNS; K_SCS_NSNS; K_SCS_BHBH; K_SCS_SBH; K_SCS_SNS] then
    if is q "ADM(J)|BHNS" then
      if is m "S_inf,default" then
        Ok (Some (Last, Phys))
      else
      if is m "S+V,Ossokine" then
        Ok (Some (split_face n1, Phys))
      else
      if is m "S+V,constraint" then
        do b <- cov (S_ "NS_around_IB,BH_around_IB");
        if b then
          Ok (Some (First, Phys))
        else
        Abort
      else
      if is m "S_obj1+S_obj2,default" then
        do b <- cov (S_ "BH_around_IB");
        if b then
          Ok (Some (First, Phys))
        else
        do b <- cov (S_ "NS_OB");
        if b then
          Ok (Some (Last, Phys))
        else
        Abort
      else
      Abort
    else
    if is q "ADM(J)|BHBH" then
      if is m "S_inf,default" then
        Ok (Some (Last, Phys))
      else
      if is m "S+V,Ossokine" then
        Ok (Some (split_face n1, Phys))
      else
      if is m "S+V,constraint" then
        do b <- cov (S_ "BH1_around_IB,BH2_around_IB");
        if b then
          Ok (Some (First, Phys))
        else
        Abort
      else
      if is m "S_obj1+S_obj2,default" then
        do b <- cov (S_ "BH1_around_IB,BH2_around_IB");
        if b then
          Ok (Some (First, Phys))
        else
        Abort
      else
      Abort
    else
    if is q "ADM(J)|NSNS" then
      if is m "S_inf,default" then
        Ok (Some (Last, Phys))
      else
      if is m "S+V,Ossokine" then
        Ok (Some (split_face n1, Phys))
      else
      if is m "S+V,constraint" then
        do b <- cov (S_ "NS1_around_IB,NS2_around_IB");
        if b then
          Ok (Some (First, Phys))
        else
        Abort
      else
      if is m "S_obj1+S_obj2,default" then
        do b <- cov (S_ "NS1_OB");
        if b then
          Ok (Some (Last, Phys))
        else
        do b <- cov (S_ "NS2_OB");
        if b then
          Ok (Some (Last, Phys))
        else
        Abort
      else
      Abort
    else
    if is q "ADM(J)|SNS" then
      if is m "S_inf,default" then
        Ok (Some (Last, Phys))
      else
      if is m "S+V,Ossokine" then
        Ok (Some (split_face n1, Phys))
      else
      if is m "S+V,constraint" then
        do b <- cov (S_ "NS_around_IB");
        if b then
          Ok (Some (First, Phys))
        else
        Abort
      else
      if is m "S_obj,default" then
        do b <- cov (S_ "NS_OB");
        if b then
          Ok (Some (Last, Phys))
        else
        Abort
      else
      Abort
    else
    if is q "ADM(J)|NS" then
      if is m "S_obj,default" then
        Ok (Some (Last, Phys))
      else
      Abort
    else
    if is q "ADM(J)|NS1" then
      if is m "S_obj,default" then
        Ok (Some (Last, Phys))
      else
      Abort
    else
    if is q "ADM(J)|NS2" then
      if is m "S_obj,default" then
        Ok (Some (Last, Phys))
      else
      Abort
    else
    if is q "ADM(J)|BH" then
      if is m "S_obj,default" then
        Ok (Some (First, Phys))
      else
      Abort
    else
    if is q "ADM(J)|BH1" then
      if is m "S_obj,default" then
        Ok (Some (First, Phys))
      else
      Abort
    else
    if is q "ADM(J)|BH2" then
      if is m "S_obj,default" then
        Ok (Some (First, Phys))
      else
      Abort
    else
    if is q "ADM(J)|SBH" then
      if is m "S_inf,default" then
        Ok (Some (Last, Phys))
      else
      if is m "S+V,Ossokine" then
        Ok (Some (split_face n1, Phys))
      else
      Abort
    else
    Abort
  else
  Abort.

(* obs_calculate.c:1321-1356 *)
Definition formula_J (k : kind) (m : str) : outcome formula :=
  if kind_in k [K_SCS_BHNS; K_SCS_NSNS; K_SCS_BHBH; K_SCS_SBH; K_SCS_SNS] then
    if is m "S_inf,default" then
      Ok F_obs_ADM_J_S_default
    else
    if is m "S_obj,default" then
      Ok F_obs_ADM_J_S_default
    else
    if is m "S_obj1+S_obj2,default" then
      Ok F_obs_ADM_J_S_default
    else
    if is m "S+V,Ossokine" then
      Ok F_obs_ADM_J_Stokes_SV_Ossokine
    else
    if is m "S+V,constraint" then
      Ok F_obs_ADM_J_Stokes_SV_constraint
    else
    Abort
  else
  Abort.

(* obs_calculate.c:2773-2957 *)
Definition collect_M (k : kind) (q m : str) (n1 : bool) : outcome (option str * option str) :=
  if kind_in k [K_SCS_BHNS; K_SCS_NSNS; K_SCS_BHBH; K_SCS_SBH; K_SCS_SNS] then
    if is q "ADM(M)|BHNS" then
      if is m "S+V,default" then
        Ok (Some (S_ "outermost,filling_box,NS,NS_around,BH_around"), Some (S_ "BH_around_IB"))
      else
      if is m "S+V,conformal" then
        Ok (Some (S_ "outermost,filling_box,NS,NS_around,BH_around"), Some (S_ "BH_around_IB"))
      else
      if is m "S_inf,default" then
        Ok (None, Some (S_ "outermost_OB"))
      else
      Abort
    else
    if is q "ADM(M)|BHBH" then
      if is m "S+V,default" then
        Ok (Some (S_ "outermost,filling_box,BH1_around,BH2_around"), Some (S_ "BH1_around_IB,BH2_around_IB"))
      else
      if is m "S+V,conformal" then
        Ok (Some (S_ "outermost,filling_box,BH1_around,BH2_around"), Some (S_ "BH1_around_IB,BH2_around_IB"))
      else
      if is m "S_inf,default" then
        Ok (None, Some (S_ "outermost_OB"))
      else
      Abort
    else
    if is q "ADM(M)|NSNS" then
      if is m "S+V,default" then
        Ok (Some (S_ "outermost,filling_box,NS1,NS1_around,NS2,NS2_around"), None)
      else
      if is m "S+V,conformal" then
        Ok (Some (S_ "outermost,filling_box,NS1,NS1_around,NS2,NS2_around"), None)
      else
      if is m "S_inf,default" then
        Ok (None, Some (S_ "outermost_OB"))
      else
      Abort
    else
    if is q "ADM(M)|SNS" then
      if is m "S+V,default" then
        Ok (Some (S_ "outermost,filling_box,NS,NS_around"), None)
      else
      if is m "S+V,conformal" then
        Ok (Some (S_ "outermost,filling_box,NS,NS_around"), None)
      else
      if is m "S_inf,default" then
        Ok (None, Some (S_ "outermost_OB"))
      else
      Abort
    else
    if is q "ADM(M)|NS" then
      if is m "V_obj,default" then
        Ok (Some (S_ "NS"), None)
      else
      Abort
    else
    if is q "ADM(M)|NS1" then
      if is m "V_obj,default" then
        Ok (Some (S_ "NS1"), None)
      else
      Abort
    else
    if is q "ADM(M)|NS2" then
      if is m "V_obj,default" then
        Ok (Some (S_ "NS2"), None)
      else
      Abort
    else
    if is q "ADM(M)|SBH" then
      if is m "S+V,default" then
        Ok (Some (S_ "outermost,BH_around"), Some (S_ "BH_around_IB"))
      else
      if is m "S_inf,default" then
        Ok (None, Some (S_ "outermost_OB"))
      else
      Abort
    else
    Abort
  else
  Abort.

(* obs_calculate.c:2967-3007: no check *)
Definition volcheck_M (k : kind) (q : str) : outcome unit := Ok tt.

(* obs_calculate.c:3051-3222 *)
Definition surf_M (k : kind) (q m : str) (n1 : bool) (cov : str -> outcome bool) : outcome (option (face * metric)) :=
  if kind_in k [K_SCS_BHNS; K_SCS_NSNS; K_SCS_BHBH; K_SCS_SNS; K_SCS_SBH] then
    if is q "ADM(M)|BHNS" then
      if is m "S+V,default" then
        Ok (Some (First, Conf))
      else
      if is m "S+V,conformal" then
        Ok (Some (First, Conf))
      else
      if is m "S_inf,default" then
        Ok (Some (Last, Phys))
      else
      Abort
    else
    if is q "ADM(M)|BHBH" then
      if is m "S+V,default" then
        Ok (Some (First, Conf))
      else
      if is m "S+V,conformal" then
        Ok (Some (First, Conf))
      else
      if is m "S_inf,default" then
        Ok (Some (Last, Phys))
      else
      Abort
    else
    if is q "ADM(M)|NSNS" then
      if is m "S+V,default" then
        Ok None
      else
      if is m "S+V,conformal" then
        Ok None
      else
      if is m "S_inf,default" then
        Ok (Some (Last, Phys))
      else
      Abort
    else
    if is q "ADM(M)|SNS" then
      if is m "S+V,default" then
        Ok None
      else
      if is m "S+V,conformal" then
        Ok None
      else
      if is m "S_inf,default" then
        Ok (Some (Last, Phys))
      else
      Abort
    else
    if is q "ADM(M)|NS" then
      if is m "V_obj,default" then
        Ok None
      else
      Abort
    else
    if is q "ADM(M)|NS1" then
      if is m "V_obj,default" then
        Ok None
      else
      Abort
    else
    if is q "ADM(M)|NS2" then
      if is m "V_obj,default" then
        Ok None
      else
      Abort
    else
    if is q "ADM(M)|SBH" then
      if is m "S+V,default" then
        Ok (Some (First, Conf))
      else
      if is m "S_inf,default" then
        Ok (Some (Last, Phys))
      else
      Abort
    else
    Abort
  else
  Abort.

(* obs_calculate.c:3226-3257 *)
Definition formula_M (k : kind) (m : str) : outcome formula :=
  if kind_in k [K_SCS_BHNS; K_SCS_NSNS; K_SCS_BHBH; K_SCS_SBH; K_SCS_SNS] then
    if is m "S+V,default" then
      Ok F_obs_ADM_mass_SV_isotropic
    else
    if is m "S+V,conformal" then
      Ok F_obs_ADM_mass_SV_conformal
    else
    if is m "S_inf,default" then
      Ok F_obs_ADM_mass_S2
    else
    if is m "V_obj,default" then
      Ok F_obs_ADM_mass_SV_isotropic
    else
    Abort
  else
  Abort.

(* obs_calculate.c:2234-2421 *)
Definition collect_K (k : kind) (q m : str) (n1 : bool) : outcome (option str * option str) :=
  if kind_in k [K_SCS_BHNS; K_SCS_NSNS; K_SCS_BHBH; K_SCS_SBH; K_SCS_SNS] then
    if is q "Komar(M)|BHNS" then
      if is m "S+V,default" then
        Ok (Some (S_ "NS"), Some (S_ "BH_around_IB"))
      else
      if is m "S_inf,default" then
        Ok (None, Some (S_ "outermost_OB"))
      else
      Abort
    else
    if is q "Komar(M)|BHBH" then
      if is m "S+V,default" then
        Ok (None, Some (S_ "BH1_around_IB,BH2_around_IB"))
      else
      if is m "S_inf,default" then
        Ok (None, Some (S_ "outermost_OB"))
      else
      Abort
    else
    if is q "Komar(M)|NSNS" then
      if is m "S+V,default" then
        Ok (Some (S_ "NS1,NS2"), None)
      else
      if is m "S_inf,default" then
        Ok (None, Some (S_ "outermost_OB"))
      else
      Abort
    else
    if is q "Komar(M)|SNS" then
      if is m "S+V,default" then
        Ok (Some (S_ "NS"), None)
      else
      if is m "S_inf,default" then
        Ok (None, Some (S_ "outermost_OB"))
      else
      Abort
    else
    if is q "Komar(M)|NS" then
      if is m "V_obj,default" then
        Ok (Some (S_ "NS"), None)
      else
      if is m "S_obj,default" then
        Ok (None, Some (S_ "NS_OB"))
      else
      Abort
    else
    if is q "Komar(M)|NS1" then
      if is m "V_obj,default" then
        Ok (Some (S_ "NS1"), None)
      else
      if is m "S_obj,default" then
        Ok (None, Some (S_ "NS1_OB"))
      else
      Abort
    else
    if is q "Komar(M)|NS2" then
      if is m "V_obj,default" then
        Ok (Some (S_ "NS2"), None)
      else
      if is m "S_obj,default" then
        Ok (None, Some (S_ "NS2_OB"))
      else
      Abort
    else
    if is q "Komar(M)|BH" then
      Ok (None, Some (S_ "BH_around_IB"))
    else
    if is q "Komar(M)|BH1" then
      Ok (None, Some (S_ "BH1_around_IB"))
    else
    if is q "Komar(M)|BH2" then
      Ok (None, Some (S_ "BH2_around_IB"))
    else
    if is q "Komar(M)|SBH" then
      if is m "S_obj,default" then
        Ok (None, Some (S_ "BH_around_IB"))
      else
      if is m "S_inf,default" then
        Ok (None, Some (S_ "outermost_OB"))
      else
      Abort
    else
    Abort
  else
  Abort.

(* obs_calculate.c:2431-2471: no check *)
Definition volcheck_K (k : kind) (q : str) : outcome unit := Ok tt.

(* obs_calculate.c:2516-2714 *)
Definition surf_K (k : kind) (q m : str) (n1 : bool) (cov : str -> outcome bool) : outcome (option (face * metric)) :=
  if kind_in k [K_SCS_BHNS; K_SCS_NSNS; K_SCS_BHBH; K_SCS_SBH; K_SCS_SNS] then
    if is q "Komar(M)|BHNS" then
      if is m "S+V,default" then
        Ok (Some (First, Phys))
      else
      if is m "S_inf,default" then
        Ok (Some (split_face n1, Phys))
      else
      Abort
    else
    if is q "Komar(M)|BHBH" then
      if is m "S+V,default" then
        Ok (Some (First, Phys))
      else
      if is m "S_inf,default" then
        Ok (Some (split_face n1, Phys))
      else
      Abort
    else
    if is q "Komar(M)|NSNS" then
      if is m "S+V,default" then
        Ok None
      else
      if is m "S_inf,default" then
        Ok (Some (split_face n1, Phys))
      else
      Abort
    else
    if is q "Komar(M)|SNS" then
      if is m "S+V,default" then
        Ok None
      else
      if is m "S_inf,default" then
        Ok (Some (split_face n1, Phys))
      else
      Abort
    else
    if is q "Komar(M)|NS" then
      if is m "V_obj,default" then
        Ok None
      else
      if is m "S_obj,default" then
        Ok (Some (Last, Phys))
      else
      Abort
    else
    if is q "Komar(M)|NS1" then
      if is m "V_obj,default" then
        Ok None
      else
      if is m "S_obj,default" then
        Ok (Some (Last, Phys))
      else
      Abort
    else
    if is q "Komar(M)|NS2" then
      if is m "V_obj,default" then
        Ok None
      else
      if is m "S_obj,default" then
        Ok (Some (Last, Phys))
      else
      Abort
    else
    if is q "Komar(M)|BH" then
      Ok (Some (First, Phys))
    else
    if is q "Komar(M)|BH1" then
      Ok (Some (First, Phys))
    else
    if is q "Komar(M)|BH2" then
      Ok (Some (First, Phys))
    else
    if is q "Komar(M)|SBH" then
      if is m "S_obj,default" then
        Ok (Some (First, Phys))
      else
      if is m "S_inf,default" then
        Ok (Some (split_face n1, Phys))
      else
      Abort
    else
    Abort
  else
  Abort.

(* obs_calculate.c:2718-2749 *)
Definition formula_K (k : kind) (m : str) : outcome formula :=
  if kind_in k [K_SCS_BHNS; K_SCS_NSNS; K_SCS_BHBH; K_SCS_SBH; K_SCS_SNS] then
    if is m "S+V,default" then
      Ok F_obs_Komar_mass
    else
    if is m "S_obj,default" then
      Ok F_obs_Komar_mass
    else
    if is m "S_inf,default" then
      Ok F_obs_Komar_mass
    else
    if is m "V_obj,default" then
      Ok F_obs_Komar_mass
    else
    if is m "S+V,default" then
      Ok F_obs_Komar_mass
    else
    Abort
  else
  Ok NoFormula.
