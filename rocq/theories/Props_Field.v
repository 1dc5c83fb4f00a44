(** Props_Field.v - property theorems C24, C25, C26, C41, C42 (fields of a patch). *)
From Coq Require Import Permutation.
From Verif Require Import Base TextSpec FieldModel FieldSpec FieldProofs FieldCache.
From Verif Require ParamSpec.

Definition ex_hist : list (fop nat) :=
  [FAdd nat (S_ "psi") None true; FAdd nat (S_ "dpsi_D0") None false; FAdd nat (S_ "alpha") (Some (S_ "(2dim)(x)")) true;
   FSet nat (S_ "psi") (Some 7); FAdd nat (S_ "dpsi_D1") None true;
   FRegex nat (fun s => match s with "d"%char :: _ => true | _ => false end); FRemove nat (S_ "alpha"); FAdd nat (S_ "alpha") None true].

(** C24. The fields of a patch behave like a map by name, over every history of add / remove / remove by pattern / store.
    [p_run] is the map, [f_run] the array of the code. *)
Theorem C24_pool_is_map : forall (V : Type) (zeros : V) h,
  match f_run V zeros [] h, p_run V zeros (fun _ => None) h with
  | Ok l, Ok m => NoDup (map (fname V) l) /\
      (forall n, (m n = None <-> LookUpField V n l = INT_MIN) /\
        (forall f, m n = Some f <-> (0 <= LookUpField V n l)%Z /\ nth_error l (Z.to_nat (LookUpField V n l)) = Some f))
  | Abort, Abort => True
  | _, _ => False
  end.
Proof. exact pool_is_map. Qed.
Print Assumptions C24_pool_is_map.
Example C24_ex : exists l, f_run nat 0 [] ex_hist = Ok l /\ map (fun f => (fname nat f, fv nat f)) l = [(S_ "psi", Some 7); (S_ "alpha", Some 0)].
Proof. eexists. split; vm_compute; reflexivity. Qed.
Example C24_ex_dup : f_run nat 0 [] (ex_hist ++ [FAdd nat (S_ "psi") None true]) = Abort.
Proof. vm_compute; reflexivity. Qed.

(** C25. A coefficient request answers with the transform of the current values, over every history of writes through the
    macros and requests; and it does answer when the field has values and every direction a transform. *)
Theorem C25_coefficients_current_partial : forall (V : Type) pn coll basis (T : nat -> option (V -> V)) v h f,
  Forall (no_poke V) h -> crun V pn coll basis T (mkC V v None None) h = Ok f ->
  (forall o f' w, no_poke V o -> cstep V pn coll basis T f o = Ok (f', Some w) ->
     exists x, cv V f = Some x /\ cv V f' = Some x /\ answer V T o x w) /\
  ((forall d, d < 3 -> T d <> None) -> cv V f <> None -> forall o, valid V o ->
     exists f' w, cstep V pn coll basis T f o = Ok (f', Some w)).
Proof. exact cache_correct. Qed.
Print Assumptions C25_coefficients_current_partial.
Definition ex_T (d : nat) : option (list nat -> list nat) := Some (fun l => d :: l).
Definition ex_coll (d : nat) : Z := 2%Z.
Example C25_ex : exists f f' w,
  crun (list nat) 12 ex_coll ex_coll ex_T (mkC (list nat) (Some [7]) None None) [C1 _ 1; C2 _ 1 2; C3 _; CWrite _ [8]; C1 _ 2; C1 _ 1] = Ok f /\
  cstep (list nat) 12 ex_coll ex_coll ex_T f (C2 _ 0 1) = Ok (f', Some w) /\ w = [0; 1; 8].
Proof. do 3 eexists. split; [vm_compute; reflexivity|]. split; vm_compute; reflexivity. Qed.

(** C25, the missing part: values stored behind the cache's back, as the checkpoint reader does (checkpoint.c:694), give
    stale coefficients - for every transform and every pair of values that it distinguishes. *)
Theorem C25_poke_stale_refuted : forall (V : Type) pn coll basis (T : nat -> option (V -> V)) t d x y,
  d < 3 -> T d = Some t -> t x <> t y ->
  exists f f' w, crun V pn coll basis T (mkC V (Some x) None None) [C1 V d; CPoke V y] = Ok f /\
    cv V f = Some y /\ cstep V pn coll basis T f (C1 V d) = Ok (f', Some w) /\ w = t x /\ w <> t y.
Proof. exact poke_stale. Qed.
Print Assumptions C25_poke_stale_refuted.
Example C25_ex2 : exists t, ex_T 1 = Some t /\ t [1] <> t [2].
Proof. eexists. split; [reflexivity|]. discriminate. Qed.

(** C26. Removing by pattern removes all matches and nothing else, in every reachable pool; the search by pattern returns
    exactly the matching positions. *)
Theorem C26_remove_by_pattern :
  (forall (V : Type) (zeros : V) h l m, f_run V zeros [] h = Ok l ->
     exists l', remove_field_regex V m l = Ok l' /\ Permutation l' (filter (fun f => negb (m (fname V f))) l)) /\
  (forall (V : Type) m l j, In j (find_index_regex V m 0 l) <-> exists f, nth_error l j = Some f /\ m (fname V f) = true).
Proof. exact (conj regex_removal find_regex_spec). Qed.
Print Assumptions C26_remove_by_pattern.
Example C26_ex : exists l l', f_run nat 0 [] (firstn 5 ex_hist) = Ok l /\
  remove_field_regex nat (fun s => match s with "d"%char :: _ => true | _ => false end) l = Ok l' /\
  map (fname nat) l' = [S_ "psi"; S_ "alpha"] /\
  find_index_regex nat (fun s => match s with "d"%char :: _ => true | _ => false end) 0 l = [1; 3].
Proof. do 2 eexists. split; [vm_compute; reflexivity|]. repeat split; vm_compute; reflexivity. Qed.

(** C41. Attributes accumulate: each one added is present afterwards, the earlier ones stay, adding twice is adding once, and
    an attribute without parentheses is refused. *)
Theorem C41_attributes :
  (forall attr a s, add_attribute attr a = Ok s ->
     parenthesised a = true /\ (exists t, s = Some t /\ ParamSpec.contains t a) /\ add_attribute s a = Ok s) /\
  (forall attr a s b, add_attribute attr a = Ok s ->
     match attr with Some t => ParamSpec.contains t b | None => False end ->
     match s with Some t => ParamSpec.contains t b | None => False end) /\
  (forall attr a, parenthesised a = false -> add_attribute attr a = Abort).
Proof. exact attributes. Qed.
Print Assumptions C41_attributes.
Example C41_ex : add_attribute (Some (S_ "(3dim)")) (S_ "(sym)") = Ok (Some (S_ "(3dim)(sym)")).
Proof. reflexivity. Qed.

(** C42. Auxiliary fields: a comma separated list of new names is added to every patch, and removing the list gives every
    patch back its fields; a comma before a single name stops the program. *)
Theorem C42_aux_fields :
  (forall (V : Type) (zeros : V) g ns, NoDup ns -> Forall (fun a => a <> [] /\ ~ In ","%char a /\ ~ In (ascii_of_N 0) a) ns ->
     Forall (fun l => NoDup (map (fname V) l) /\ forall n, In n ns -> ~ In n (map (fname V) l)) g ->
     exists g1 g2, add_aux_fields V zeros g (join_with ","%char ns) = Ok g1 /\
       Forall2 (fun l l1 => forall n, In n (map (fname V) l1) <-> In n (map (fname V) l) \/ In n ns) g g1 /\
       remove_aux_fields V g1 (join_with ","%char ns) = Ok g2 /\ Forall2 (@Permutation (field V)) g g2) /\
  (forall (V : Type) (zeros : V) g n, n <> [] -> ~ In ","%char n -> ~ In (ascii_of_N 0) n -> g <> [] ->
     Forall (fun l => ~ In n (map (fname V) l)) g -> add_aux_fields V zeros g (","%char :: n) = Abort).
Proof. exact (conj aux_add_remove aux_leading_comma). Qed.
Print Assumptions C42_aux_fields.
Example C42_ex : exists l g1, f_run nat 0 [] ex_hist = Ok l /\ add_aux_fields nat 0 [l; []] (S_ "bh__n,dbh__n_D0") = Ok g1 /\
  map (map (fname nat)) g1 = [[S_ "psi"; S_ "alpha"; S_ "bh__n"; S_ "dbh__n_D0"]; [S_ "bh__n"; S_ "dbh__n_D0"]] /\
  remove_aux_fields nat g1 (S_ "bh__n,dbh__n_D0") = Ok [l; []].
Proof. do 2 eexists. split; [vm_compute; reflexivity|]. split; [vm_compute; reflexivity|]. split; vm_compute; reflexivity. Qed.
