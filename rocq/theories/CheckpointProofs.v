(** CheckpointProofs.v - the codec round trips. *)
From Verif Require Import Base ParamModel ParamText TextModel TextProofs CheckpointModel.
Local Arguments NUL : simpl never.
Local Arguments N.of_nat : simpl never.
Local Arguments N.to_nat : simpl never.

Lemma le_length k : forall n, List.length (le k n) = k.
Proof. induction k as [|k IH]; intros n; cbn; [reflexivity|rewrite IH; reflexivity]. Qed.
Lemma unle_le k : forall n, (n < 256 ^ N.of_nat k)%N -> unle (le k n) = n.
Proof.
  induction k as [|k IH]; intros n H.
  - cbn in *. change (256 ^ N.of_nat 0)%N with 1%N in H. lia.
  - cbn [le unle]. rewrite N_ascii_embedding by (apply N.mod_lt; lia).
    rewrite IH.
    + rewrite (N.div_mod n 256) at 3 by lia. lia.
    + apply N.div_lt_upper_bound; [lia|]. rewrite Nnat.Nat2N.inj_succ, N.pow_succ_r' in H. exact H.
Qed.

Lemma fread_items (items : list bytes) size rest : 0 < size -> Forall (fun x => List.length x = size) items ->
  fread (List.concat items ++ rest) size (List.length items) = (items, rest).
Proof.
  intros Hs H. unfold fread.
  assert (L : List.length (List.concat items) = List.length items * size).
  { induction H as [|x l Hx Hl IH]; cbn; [reflexivity|]. rewrite app_length, Hx, IH. reflexivity. }
  assert (K : Nat.min (List.length items) (List.length (List.concat items ++ rest) / size) = List.length items).
  { apply Nat.min_l. rewrite app_length, L. apply Nat.div_le_lower_bound; [lia|].
    rewrite Nat.mul_comm. lia. }
  rewrite K, Nat.eqb_refl. f_equal.
  - clear K L. assert (G : forall pre, map (fun i => firstn size (skipn (i * size) (pre ++ List.concat items ++ rest)))
        (seq (List.length pre / size) (List.length items)) = items \/ List.length pre mod size <> 0).
    { induction H as [|x l Hx Hl IH]; intros pre; [left; reflexivity|].
      destruct (Nat.eq_dec (List.length pre mod size) 0) as [E|E]; [left|right; exact E].
      assert (P : List.length pre / size * size = List.length pre).
      { rewrite (Nat.div_mod (List.length pre) size) at 2 by lia. rewrite E. lia. }
      cbn [List.length seq map List.concat]. f_equal.
      - rewrite P, skipn_app_l, <- app_assoc, <- Hx. apply firstn_app_l.
      - specialize (IH (pre ++ x)). rewrite app_length, Hx in IH.
        replace (List.length pre + size) with (List.length pre + 1 * size) in IH by lia.
        rewrite Nat.div_add, Nat.mod_add in IH by lia.
        destruct IH as [IH|IH]; [|congruence].
        rewrite <- app_assoc in IH. rewrite <- app_assoc. rewrite Nat.add_1_r in IH. exact IH. }
    destruct (G []) as [X|X]; cbn [List.length List.app] in X.
    + rewrite Nat.div_0_l in X by lia. exact X.
    + rewrite Nat.mod_0_l in X by lia. congruence.
  - rewrite <- L. apply skipn_app_l.
Qed.

Definition u32 (n : N) : Prop := (n < 2 ^ 32)%N.
Definition u64 (n : N) : Prop := (n < 2 ^ 64)%N.

Lemma rSize_le n f : u32 n -> rSize (le 4 n ++ f) = Ok (n, f).
Proof.
  intros H. unfold rSize, sizeof_uint.
  assert (E := fread_items [le 4 n] 4 f ltac:(lia)). cbn [List.concat List.length] in E. rewrite app_nil_r in E.
  rewrite E by (constructor; [apply le_length|constructor]).
  rewrite unle_le by exact H. reflexivity.
Qed.

(** a C string that fits *)
Definition str_ok (s : option str) : Prop :=
  match s with Some s => ~ In NUL s /\ (N.of_nat (S (List.length s)) < 2 ^ 32)%N | None => True end.

Lemma concat_single (s : str) : List.concat (map (fun c => [c]) s) = s.
Proof. induction s as [|c s IH]; cbn; [reflexivity|rewrite IH; reflexivity]. Qed.

Lemma rP_block_items (items : list bytes) size f : 0 < size -> items <> [] ->
  u32 (N.of_nat (List.length items)) -> Forall (fun x => List.length x = size) items ->
  rP_block (le 4 (N.of_nat (List.length items)) ++ List.concat items ++ f) size = Ok (Some items, f).
Proof.
  intros Hs Hne Hu HF. unfold rP_block. rewrite rSize_le by exact Hu. cbn [obind].
  destruct (N.eqb_spec (N.of_nat (List.length items)) 0) as [K|_]; [destruct items; [congruence|cbn in K; lia]|].
  rewrite Nnat.Nat2N.id, fread_items by assumption.
  destruct items as [|i l]; [congruence|]. rewrite Nat.sub_diag. cbn [repeat]. rewrite app_nil_r. reflexivity.
Qed.

Lemma rP_str_wP s f : str_ok s -> rP_str (wP_str s ++ f) = Ok (s, f).
Proof.
  intros H. unfold rP_str. destruct s as [s|]; cbn [wP_str].
  - destruct H as [HN HL].
    assert (E : to_size (S (List.length s)) = N.of_nat (List.length (map (fun c : ascii => [c]) (s ++ [NUL])))).
    { rewrite map_length, app_length, Nat.add_1_r. unfold to_size. apply N.mod_small. exact HL. }
    rewrite E, <- app_assoc.
    assert (C : s ++ [NUL] = List.concat (map (fun c : ascii => [c]) (s ++ [NUL]))) by (symmetry; apply concat_single).
    rewrite C at 2. rewrite rP_block_items.
    + cbn [obind]. rewrite concat_single.
      destruct (in_dec ascii_dec NUL (s ++ [NUL])) as [_|K]; [|exfalso; apply K; apply in_app_iff; right; left; reflexivity].
      rewrite (cstr_app s [] HN). reflexivity.
    + lia.
    + destruct s; discriminate.
    + rewrite map_length, app_length, Nat.add_1_r. exact HL.
    + apply Forall_forall; intros x Hx; apply in_map_iff in Hx; destruct Hx as (c & <- & _); reflexivity.
  - unfold rP_block, sizeof_uint. rewrite rSize_le by (unfold u32; lia). reflexivity.
Qed.

Definition arr_ok (a : option (list dbl)) (n : N) : Prop :=
  match a with
  | Some l => l <> [] /\ n = N.of_nat (List.length l) /\ Forall u64 l
  | None => True
  end.
Lemma map_unle_le l : Forall u64 l -> map unle (map (le 8) l) = l.
Proof. induction 1 as [|x l Hx Hl IH]; cbn [map]; [reflexivity|]. rewrite IH, unle_le by exact Hx. reflexivity. Qed.

Lemma wP_arr_ok a n : arr_ok a n -> u32 n -> exists b, wP_arr a n = Ok b /\ forall f, rP_arr (b ++ f) = Ok (a, f).
Proof.
  intros H Hn. unfold wP_arr. destruct a as [l|].
  - destruct H as (Nl & -> & Hl).
    destruct (N.eqb_spec (N.of_nat (List.length l)) 0) as [K|K]; [destruct l; [congruence|cbn in K; lia]|].
    rewrite Nnat.Nat2N.id, Nat.eqb_refl. eexists. split; [reflexivity|]. intros f.
    unfold rP_arr. rewrite <- app_assoc. unfold sizeof_uint, sizeof_double.
    assert (B := rP_block_items (map (le 8) l) 8 f).
    rewrite map_length in B. unfold dbl, bytes, str in *. rewrite B.
    + cbn [obind]. rewrite map_unle_le by exact Hl. reflexivity.
    + lia.
    + destruct l; [congruence|discriminate].
    + exact Hn.
    + apply Forall_forall; intros x Hx; apply in_map_iff in Hx; destruct Hx as (c & <- & _); apply le_length.
  - eexists. split; [reflexivity|]. intros f. unfold rP_arr, rP_block, sizeof_uint.
    rewrite rSize_le by (unfold u32; lia). reflexivity.
Qed.

Lemma rV_le k n f : 0 < k -> (n < 256 ^ N.of_nat k)%N -> rV (le 4 1 ++ le k n ++ f) k = Ok (n, f).
Proof.
  intros Hk H. unfold rV. rewrite rSize_le by (unfold u32; lia). cbn [obind].
  change (N.to_nat 1) with 1.
  assert (E := fread_items [le k n] k f Hk). cbn [List.concat List.length] in E. rewrite app_nil_r in E.
  rewrite E by (constructor; [apply le_length|constructor]).
  rewrite unle_le by exact H. reflexivity.
Qed.
Lemma rV_uint u f : u32 u -> rV (wV_uint u ++ f) sizeof_uint = Ok (u, f).
Proof. intros H. unfold wV_uint, sizeof_uint. rewrite <- app_assoc. apply rV_le; [lia|exact H]. Qed.
Lemma rV_dbl x f : u64 x -> rV (wV_dbl x ++ f) sizeof_double = Ok (x, f).
Proof. intros H. unfold wV_dbl, sizeof_double. rewrite <- app_assoc. apply rV_le; [lia|exact H]. Qed.

(** *** parameters *)
Definition cpar_ok (q : cpar) : Prop :=
  let (p, n) := q in
  str_ok (Some (lv p)) /\ str_ok (rv p) /\ str_ok (rv_ip p) /\ u64 (rv_double p) /\
  arr_ok (rv_array p) n /\ u32 n.

Lemma N2b_b2N b : N2b (b2N b) = b.
Proof. destruct b; reflexivity. Qed.
Lemma u32_b2N b : u32 (b2N b).
Proof. destruct b; unfold u32; cbn; lia. Qed.

Lemma r_w_param q : cpar_ok q -> exists b, w_param q = Ok b /\ forall f, r_param (b ++ f) = Ok (q, f).
Proof.
  destruct q as [p n]. intros (H1 & H2 & H3 & H4 & H5 & H6).
  destruct (wP_arr_ok _ _ H5 H6) as (a & Ea & Ra).
  unfold w_param. rewrite Ea. cbn [obind]. eexists. split; [reflexivity|]. intros f.
  unfold r_param. rewrite <- !app_assoc.
  rewrite (rP_str_wP (Some (lv p)) _ H1). cbn [obind fst snd].
  rewrite (rP_str_wP (rv p) _ H2). cbn [obind fst snd].
  rewrite (rP_str_wP (rv_ip p) _ H3). cbn [obind fst snd].
  rewrite (rV_dbl _ _ H4). cbn [obind fst snd].
  rewrite Ra. cbn [obind fst snd].
  rewrite (rV_uint n _ H6). cbn [obind fst snd].
  rewrite (rV_uint _ _ (u32_b2N _)). cbn [obind fst snd].
  rewrite (rV_uint _ _ (u32_b2N _)). cbn [obind fst snd].
  rewrite !N2b_b2N. destruct p; reflexivity.
Qed.
Lemma r_w_params ps : Forall cpar_ok ps ->
  exists b, oconcat w_param ps = Ok b /\ forall f, r_params (List.length ps) (b ++ f) = Ok (ps, f).
Proof.
  induction 1 as [|q ps Hq Hps IH]; cbn [oconcat List.length r_params].
  - eexists. split; [reflexivity|]. reflexivity.
  - destruct (r_w_param q Hq) as (b1 & E1 & R1). destruct IH as (b2 & E2 & R2).
    rewrite E1, E2. cbn [obind]. eexists. split; [reflexivity|]. intros f.
    rewrite <- app_assoc, R1. cbn [obind fst snd]. rewrite R2. reflexivity.
Qed.
Lemma r_title_w t f : str_ok (Some t) -> r_title t (wP_str (Some t) ++ f) = Ok f.
Proof.
  intros H. unfold r_title. rewrite rP_str_wP by exact H. cbn [obind fst snd]. rewrite str_eqb_refl. reflexivity.
Qed.
Lemma noNUL_dec (s : str) : (if in_dec ascii_dec NUL s then false else true) = true -> ~ In NUL s.
Proof. destruct (in_dec ascii_dec NUL s); [discriminate|auto]. Qed.
Lemma titles_ok : str_ok (Some PARAM_HEADER) /\ str_ok (Some PARAM_FOOTER) /\
                  str_ok (Some FIELD_HEADER) /\ str_ok (Some FIELD_FOOTER).
Proof. repeat split; try (apply noNUL_dec; reflexivity); cbn; lia. Qed.
Lemma read_write_parameters ps : Forall cpar_ok ps ->
  exists b, write_parameters ps = Ok b /\ forall f, read_parameters (List.length ps) (b ++ f) = Ok (ps, f).
Proof.
  intros H. destruct (r_w_params ps H) as (b & E & R). destruct titles_ok as (T1 & T2 & _).
  unfold write_parameters. rewrite E. cbn [obind]. eexists. split; [reflexivity|]. intros f.
  unfold read_parameters. rewrite <- !app_assoc, (r_title_w _ _ T1). cbn [obind].
  rewrite R. cbn [obind fst snd]. rewrite (r_title_w _ _ T2). reflexivity.
Qed.

(** *** header *)
Lemma take_word_app w c r : Forall (fun x => is_space x = false) w -> is_space c = true ->
  take_word (w ++ c :: r) = (w, c :: r).
Proof.
  intros H Hc. induction H as [|x w Hx Hw IH]; cbn [take_word List.app].
  - rewrite Hc. reflexivity.
  - rewrite Hx, IH. reflexivity.
Qed.
Lemma scan_word_app w c r line : w <> [] -> Forall (fun x => is_space x = false) w -> is_space c = true ->
  scan_word (w ++ c :: r) line = (w, c :: r).
Proof.
  intros N H Hc. unfold scan_word. destruct w as [|x w]; [congruence|].
  inversion H as [|y z Hx Hw]; subst. cbn [List.app skip_ws]. rewrite Hx.
  exact (take_word_app (x :: w) c r H Hc).
Qed.
Lemma scan_word_nl w c r line : w <> [] -> Forall (fun x => is_space x = false) w -> is_space c = true ->
  scan_word (NL :: w ++ c :: r) line = (w, c :: r).
Proof. intros N H Hc. rewrite <- (scan_word_app w c r line N H Hc). reflexivity. Qed.

Lemma nospace_dec (s : str) : forallb (fun x => negb (is_space x)) s = true -> Forall (fun x => is_space x = false) s.
Proof.
  intros H. rewrite forallb_forall in H. apply Forall_forall. intros x Hx. apply H in Hx. destruct (is_space x); [discriminate|reflexivity].
Qed.
Lemma dec_nospace n : Forall (fun x => is_space x = false) (dec_N n).
Proof. eapply Forall_impl; [|apply dec_N_digits]. intros c Hc. apply digit_not_space. exact Hc. Qed.

Lemma notin_dec (c : ascii) (s : str) : existsb (ch_eqb c) s = false -> ~ In c s.
Proof.
  intros H K. assert (T : existsb (ch_eqb c) s = true) by (apply existsb_exists; exists c; split; [exact K|apply ch_eqb_eq; reflexivity]).
  congruence.
Qed.
Lemma in_dec_b (c : ascii) (s : str) : existsb (ch_eqb c) s = true -> In c s.
Proof. intros H. apply existsb_exists in H. destruct H as (x & Hx & E). apply ch_eqb_eq in E. subst. exact Hx. Qed.
Lemma strstr_eq_first a v : ~ In "="%char a -> strstr (a ++ "="%char :: v) (S_ "=") = Some (a, "="%char :: v).
Proof.
  intros H. induction a as [|c a IH].
  - reflexivity.
  - cbn [List.app strstr S_ list_ascii_of_string is_prefix].
    change (S_ "=") with ["="%char] in *. cbn [is_prefix].
    destruct (ascii_dec "="%char c) as [<-|N]; [exfalso; apply H; left; reflexivity|].
    rewrite IH by (intros K; apply H; right; exact K). reflexivity.
Qed.
Lemma contains_b_app a pat r : contains_b (a ++ pat ++ r) pat = true.
Proof.
  unfold contains_b. destruct (strstr (a ++ pat ++ r) pat) as [[x y]|] eqn:E; [reflexivity|].
  exfalso. apply strstr_none_contains in E. apply E. exists a, r. reflexivity.
Qed.

(** neither key occurs in the line of another key, because the keys end in different words before '=' and the
    value is a number or has no such word *)
Definition kind_ok (k : str) : Prop :=
  Forall (fun x => is_space x = false) k /\ k <> [] /\
  contains_b (S_ "grid_kind=" ++ k) (S_ "number_of_parameters") = false /\
  contains_b (S_ "grid_kind=" ++ k) (S_ "grid_number") = false.

Lemma hdr_step_np k f n h : (Z.of_N n <= INT_MAX)%Z ->
  hdr_loop (S k) (NL :: S_ "number_of_parameters=" ++ dec_N n ++ NL :: f) ALLOC_HEADER h =
  hdr_loop k (NL :: f) (S_ "number_of_parameters=" ++ dec_N n) (mkHeader (Z.of_N n) (h_gn h) (h_kind h)).
Proof.
  intros Hn. cbn [hdr_loop]. change (str_eqb ALLOC_HEADER ALLOC_FOOTER) with false. cbv iota.
  rewrite app_assoc, (scan_word_nl (S_ "number_of_parameters=" ++ dec_N n) NL f).
  2:{ discriminate. }
  2:{ apply Forall_app. split; [apply nospace_dec; reflexivity|apply dec_nospace]. }
  2:{ reflexivity. }
  assert (E1 : str_eqb (S_ "number_of_parameters=" ++ dec_N n) ALLOC_FOOTER = false) by (apply str_eqb_neq; discriminate).
  rewrite E1.
  assert (E2 : strstr (S_ "number_of_parameters=" ++ dec_N n) (S_ "=") = Some (S_ "number_of_parameters", "="%char :: dec_N n)).
  { apply (strstr_eq_first (S_ "number_of_parameters") (dec_N n)). apply notin_dec; reflexivity. }
  rewrite E2.
  assert (E3 : contains_b (S_ "number_of_parameters=" ++ dec_N n) (S_ "number_of_parameters") = true).
  { apply (contains_b_app [] (S_ "number_of_parameters") ("="%char :: dec_N n)). }
  rewrite E3. cbn [tl]. rewrite (atoi_dec_N n Hn). cbn [obind].
  unfold to_uint. rewrite Z.mod_small by (unfold INT_MAX in Hn; lia). reflexivity.
Qed.

Lemma not_contains_short (s pat : str) c : In c pat -> ~ In c s -> contains_b s pat = false.
Proof.
  intros H1 H2. unfold contains_b. destruct (strstr s pat) as [[a b]|] eqn:E; [exfalso|reflexivity].
  apply strstr_contains in E. destruct E as (x & y & ->). apply H2. apply in_app_iff. right. apply in_app_iff. left. exact H1.
Qed.
Lemma digits_not_in c s : is_digit c = false -> Forall (fun x => is_digit x = true) s -> ~ In c s.
Proof. intros H F K. rewrite Forall_forall in F. apply F in K. congruence. Qed.

Lemma hdr_step_gn k f n line h : (Z.of_N n <= INT_MAX)%Z -> str_eqb line ALLOC_FOOTER = false ->
  hdr_loop (S k) (NL :: S_ "grid_number=" ++ dec_N n ++ NL :: f) line h =
  hdr_loop k (NL :: f) (S_ "grid_number=" ++ dec_N n) (mkHeader (h_npar h) (Z.of_N n) (h_kind h)).
Proof.
  intros Hn Hl. cbn [hdr_loop]. rewrite Hl.
  rewrite app_assoc, (scan_word_nl (S_ "grid_number=" ++ dec_N n) NL f).
  2:{ discriminate. }
  2:{ apply Forall_app. split; [apply nospace_dec; reflexivity|apply dec_nospace]. }
  2:{ reflexivity. }
  assert (E1 : str_eqb (S_ "grid_number=" ++ dec_N n) ALLOC_FOOTER = false) by (apply str_eqb_neq; discriminate).
  rewrite E1.
  assert (E2 : strstr (S_ "grid_number=" ++ dec_N n) (S_ "=") = Some (S_ "grid_number", "="%char :: dec_N n)).
  { apply (strstr_eq_first (S_ "grid_number") (dec_N n)). apply notin_dec; reflexivity. }
  rewrite E2.
  assert (E3 : contains_b (S_ "grid_number=" ++ dec_N n) (S_ "number_of_parameters") = false).
  { apply (not_contains_short _ _ "s"%char); [apply in_dec_b; reflexivity|]. intros K. apply in_app_iff in K. destruct K as [K|K].
    - revert K. apply notin_dec; reflexivity.
    - revert K. apply digits_not_in; [reflexivity|apply dec_N_digits]. }
  rewrite E3.
  assert (E4 : contains_b (S_ "grid_number=" ++ dec_N n) (S_ "grid_number") = true).
  { apply (contains_b_app [] (S_ "grid_number") ("="%char :: dec_N n)). }
  rewrite E4. cbn [tl]. rewrite (atoi_dec_N n Hn). cbn [obind].
  unfold to_uint. rewrite Z.mod_small by (unfold INT_MAX in Hn; lia). reflexivity.
Qed.
Lemma hdr_step_kind k f kind line h : kind_ok kind -> str_eqb line ALLOC_FOOTER = false ->
  hdr_loop (S k) (NL :: S_ "grid_kind=" ++ kind ++ NL :: f) line h =
  hdr_loop k (NL :: f) (S_ "grid_kind=" ++ kind) (mkHeader (h_npar h) (h_gn h) (Some kind)).
Proof.
  intros (K1 & K2 & K3 & K4) Hl. cbn [hdr_loop]. rewrite Hl.
  rewrite app_assoc, (scan_word_nl (S_ "grid_kind=" ++ kind) NL f).
  2:{ discriminate. }
  2:{ apply Forall_app. split; [apply nospace_dec; reflexivity|exact K1]. }
  2:{ reflexivity. }
  assert (E1 : str_eqb (S_ "grid_kind=" ++ kind) ALLOC_FOOTER = false) by (apply str_eqb_neq; discriminate).
  rewrite E1.
  assert (E2 : strstr (S_ "grid_kind=" ++ kind) (S_ "=") = Some (S_ "grid_kind", "="%char :: kind)).
  { apply (strstr_eq_first (S_ "grid_kind") kind). apply notin_dec; reflexivity. }
  rewrite E2, K3, K4.
  assert (E4 : contains_b (S_ "grid_kind=" ++ kind) (S_ "grid_kind") = true).
  { apply (contains_b_app [] (S_ "grid_kind") ("="%char :: kind)). }
  rewrite E4. reflexivity.
Qed.
Lemma read_write_header np gn kind f :
  (Z.of_N np <= INT_MAX)%Z -> (Z.of_N gn <= INT_MAX)%Z -> kind_ok kind ->
  read_header (w_header np gn kind ++ f) = Ok (mkHeader (Z.of_N np) (Z.of_N gn) (Some kind), f).
Proof.
  intros H1 H2 H3. unfold read_header, w_header.
  repeat rewrite <- app_assoc. cbn [List.app].
  rewrite (scan_word_app ALLOC_HEADER NL) by (discriminate || (apply nospace_dec; reflexivity) || reflexivity).
  rewrite str_eqb_refl.
  rewrite (hdr_step_np 4 _ np) by exact H1.
  rewrite (hdr_step_gn 3 _ gn) by (exact H2 || (apply str_eqb_neq; discriminate)).
  rewrite (hdr_step_kind 2 _ kind) by (exact H3 || (apply str_eqb_neq; discriminate)).
  cbn [hdr_loop]. rewrite (proj2 (str_eqb_neq _ ALLOC_FOOTER)) by discriminate.
  rewrite (scan_word_nl ALLOC_FOOTER NL f) by (discriminate || (apply nospace_dec; reflexivity) || reflexivity).
  rewrite str_eqb_refl. reflexivity.
Qed.

(** *** fields *)
Lemma set_field_ok name v l : NoDup (map f_name l) -> In name (map f_name l) ->
  set_field name v l = Ok (map (fun x => if str_eqb (f_name x) name then mkFld (f_name x) v else x) l).
Proof.
  intros ND HI. induction l as [|x l IH]; [destruct HI|]. cbn [set_field map].
  inversion ND as [|a b Hn Hd]; subst. destruct (str_eqb (f_name x) name) eqn:E.
  - apply str_eqb_eq in E. f_equal. f_equal. symmetry.
    rewrite <- (map_id l) at 2. apply map_ext_in. intros y Hy.
    destruct (str_eqb (f_name y) name) eqn:Ey; [|reflexivity].
    apply str_eqb_eq in Ey. exfalso. apply Hn. rewrite E, <- Ey. apply in_map. exact Hy.
  - destruct HI as [K|K]; [apply str_eqb_neq in E; congruence|].
    rewrite IH by assumption. reflexivity.
Qed.
