(** IdrSpec.v - what the initial data reader theorems are stated with. *)
From Verif Require Import Base.

(** two names are the same for the program when they differ at most in the case of letters *)
Definition same_name (a b : str) : Prop := map tolower a = map tolower b.
(** the first place of [n] in a list *)
Definition first_at {A} (l : list A) (n : A) (k : nat) : Prop := nth_error l k = Some n /\ forall j, j < k -> nth_error l j <> Some n.
(** an item of a comma separated list *)
Definition item (s : str) : Prop := s <> [] /\ ~ In ","%char s /\ ~ In (ascii_of_N 0) s.
(** the last place of [e] among the first [m] entries of a list *)
Definition last_among (m : nat) (l : list str) (e : str) (f : nat) : Prop :=
  f < m /\ nth_error l f = Some e /\ forall f', f < f' -> f' < m -> nth_error l f' <> Some e.
