(** FillerNames.v - the names under which the fillers look up the derivatives of a field.
    Models bh_bhfiller.c:983-1040 collect_names and star_NS_surface.c:458-513 collect_names (the same code).
    SIMPLIFICATIONS: the fixed size of the name buffers is left out; an array element that is never
    written stays the empty string (the struct is made by calloc). *)
From Coq Require Import List Ascii Arith Lia.
From Verif Require Import TextModel.
Import ListNotations.
Open Scope char_scope.
Definition digit_of (i : nat) : ascii := ascii_of_nat (48 + i).
Definition is_digit (c : ascii) : bool := let n := nat_of_ascii c in andb (Nat.leb 48 n) (Nat.leb n 57).
(** regex ".+_(U|D)[[:digit:]]" (regex_search: anywhere in the string) *)
Fixpoint index_mark (s : list ascii) : bool :=
  match s with
  | [] => false
  | a :: t => match t with
     | b :: c :: _ => orb (andb (Ascii.eqb a "_") (andb (orb (Ascii.eqb b "U") (Ascii.eqb b "D")) (is_digit c))) (index_mark t)
     | _ => false
     end
  end.
Definition indexed (s : list ascii) : bool := match s with [] => false | _ :: t => index_mark t end.
(** bh_bhfiller.c:989-1019 and 1020-1039: df[i] *)
Definition df_name (f : list ascii) (i : nat) : list ascii :=
  match f with
  | "_" :: s =>
     if indexed s then "_" :: "d" :: s ++ ["D"; digit_of i]
     else match i with 0 => "_" :: "d" :: s ++ ["_"; "D"; digit_of 2] (* written three times, :1013 *) | _ => [] end
  | _ => if indexed f then "d" :: f ++ ["D"; digit_of i] else "d" :: f ++ ["_"; "D"; digit_of i]
  end.
(** ddf[IJsymm3(i,j)], written for i <= j *)
Definition ddf_name (f : list ascii) (i j : nat) : list ascii :=
  let (i, j) := if Nat.leb i j then (i, j) else (j, i) in
  match f with
  | "_" :: s =>
     if indexed s then "_" :: "d" :: "d" :: s ++ ["D"; digit_of i; "D"; digit_of j]
     else "_" :: "d" :: "d" :: s ++ ["_"; "D"; digit_of i; "D"; digit_of j]
  | _ => if indexed f then "d" :: "d" :: f ++ ["D"; digit_of i; "D"; digit_of j] else "d" :: "d" :: f ++ ["_"; "D"; digit_of i; "D"; digit_of j]
  end.

(** ** proofs *)
(** the naming convention: a leading underscore stays in front; indices are appended, after an
    underscore if the name has none yet *)
Definition documented (ds : nat) (f : list ascii) (idx : list nat) : list ascii :=
  let body s := repeat "d" ds ++ s ++ (if indexed s then [] else ["_"]) ++ flat_map (fun i => ["D"; digit_of i]) idx in
  match f with "_" :: s => "_" :: body s | _ => body f end.
Lemma df_ok f i : (hd_error f <> Some "_" \/ indexed (tl f) = true) -> df_name f i = documented 1 f [i].
Proof.
  intros H. unfold df_name, documented. destruct f as [|c s]; [cbn; reflexivity|].
  destruct (Ascii.eqb_spec c "_") as [->|N].
  - destruct H as [H|H]; [cbn in H; congruence|]. cbn [tl] in H. rewrite H. reflexivity.
  - assert (E : forall (A : Type) (x : list ascii -> A) y, (match c :: s with "_" :: s => x s | _ => y end) = y).
    { intros A x y. destruct c as [[|] [|] [|] [|] [|] [|] [|] [|]]; try reflexivity. exfalso; apply N; reflexivity. }
    rewrite (E _ (fun s => if indexed s then _ else _)), (E _ (fun s => "_" :: _)). destruct (indexed (c :: s)); cbn; reflexivity.
Qed.
Lemma ddf_ok f i j : i <= j -> ddf_name f i j = documented 2 f [i; j] /\ ddf_name f j i = documented 2 f [i; j].
Proof.
  intros L. assert (S : ddf_name f j i = ddf_name f i j).
  { unfold ddf_name. destruct (Nat.leb_spec i j); [|lia]. destruct (Nat.leb_spec j i); [|reflexivity]. replace j with i by lia. reflexivity. }
  rewrite S. enough (E : ddf_name f i j = documented 2 f [i; j]) by (split; exact E). clear S.
  unfold ddf_name, documented. replace (Nat.leb i j) with true by (symmetry; apply Nat.leb_le; exact L). cbv iota beta zeta.
  destruct f as [|c s]; [reflexivity|].
  destruct (Ascii.eqb_spec c "_") as [->|N].
  - destruct (indexed s); reflexivity.
  - assert (E : forall (A : Type) (x : list ascii -> A) y, (match c :: s with "_" :: s => x s | _ => y end) = y).
    { intros A x y. destruct c as [[|] [|] [|] [|] [|] [|] [|] [|]]; try reflexivity. exfalso; apply N; reflexivity. }
    rewrite (E _ (fun s => if indexed s then _ else _)), (E _ (fun s => "_" :: _)). destruct (indexed (c :: s)); cbn; reflexivity.
Qed.
Lemma df_bad s : indexed s = false -> df_name ("_" :: s) 1 = [] /\ df_name ("_" :: s) 2 = [] /\
  df_name ("_" :: s) 0 = documented 1 ("_" :: s) [2].
Proof. intros H. unfold df_name, documented. rewrite H. repeat split. Qed.
Lemma digit_inj i j : i < 3 -> j < 3 -> digit_of i = digit_of j -> i = j.
Proof. intros Hi Hj. destruct i as [|[|[|i]]]; destruct j as [|[|[|j]]]; try lia; intros E; vm_compute in E; try congruence; reflexivity. Qed.
Lemma documented_inj ds f i j : i < 3 -> j < 3 -> documented ds f [i] = documented ds f [j] -> i = j.
Proof.
  intros Hi Hj H. apply digit_inj; auto. unfold documented in H.
  assert (K : forall s, repeat "d" ds ++ s ++ (if indexed s then [] else ["_"]) ++ flat_map (fun i => ["D"; digit_of i]) [i] =
     repeat "d" ds ++ s ++ (if indexed s then [] else ["_"]) ++ flat_map (fun i => ["D"; digit_of i]) [j] -> digit_of i = digit_of j).
  { intros s X. do 3 apply app_inv_head in X. apply (f_equal (fun l => nth 1 l "D")) in X. exact X. }
  destruct f as [|c s]; [exact (K [] H)|].
  destruct (Ascii.eqb_spec c "_") as [->|N]; [injection H as H; exact (K s H)|].
  apply (K (c :: s)). 
  assert (X : forall (A : Type) (x : list ascii -> A) y, (match c :: s with "_" :: s => x s | _ => y end) = y).
  { intros A x y. destruct c as [[|] [|] [|] [|] [|] [|] [|] [|]]; try reflexivity. exfalso; apply N; reflexivity. }
  rewrite !(X _ (fun s => "_" :: _)) in H. exact H.
Qed.
