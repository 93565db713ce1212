(** Vocabulary for ansatz names and cluster ranks. *)
From Coq Require Import String.
From Verif Require Import Base AnsatzModel.
Set Implicit Arguments.
Local Open Scope nat_scope.
Local Open Scope list_scope.

(** The brackets [l], [r] of [s] alternate, the first being [l] (or [r] if one is already open). *)
Fixpoint alternate (l r : nat) (opened : bool) (s : pystr) : Prop :=
  match s with
  | [] => True
  | c :: s' => if c =? l then opened = false /\ alternate l r true s'
               else if c =? r then opened = true /\ alternate l r false s'
               else alternate l r opened s'
  end.
(** Names whose parentheses and square brackets alternate, without underscore. *)
Definition method_name (s : pystr) : Prop :=
  alternate c_lp c_rp false s /\ alternate c_lb c_rb false s /\ ~ In c_us s.
(** Names without dash, square brackets and the letters w, x, y, p. *)
Definition plain_name (s : pystr) : Prop :=
  alternate c_lp c_rp false s /\ forall c, In c s -> ~ In c [c_dash; c_lb; c_rb; c_w; c_x; c_y; c_p].

Definition occ_letter (c : nat) : bool := memb c (str "oO").
Definition vir_letter (c : nat) : bool := memb c (str "vV").
Definition bos_letter (c : nat) : bool := c =? chr_of "b".
Definition num (p : nat -> bool) (k : pystr) : nat := length (filter p k).

(** Particle-hole transpose: occupied letters followed by virtual letters become virtual followed by occupied. *)
Definition ph_transposed (k k' : pystr) : Prop :=
  exists b o v, length o = length v /\ forallb bos_letter b = true /\ forallb occ_letter o = true /\ forallb vir_letter v = true /\
    k = b ++ o ++ v /\ k' = b ++ v ++ o.

(** Number of occupied and virtual indices of an operator of rank [r] in each sector. *)
Definition occ_count (w : which) (r : nat) : nat := match w with Wea => r - 1 | _ => r end.
Definition vir_count (w : which) (r : nat) : nat := match w with Wip => r - 1 | _ => r end.

(** The excitation letters S, D, T, Q and their ranks. *)
Definition letter_rank (c : nat) : option nat :=
  if c =? chr_of "S" then Some 1 else if c =? chr_of "D" then Some 2 else if c =? chr_of "T" then Some 3
  else if c =? chr_of "Q" then Some 4 else None.

(** An entry of the fermionic table: the name is the symbol and the rank (with a suffix a/b for split quadruples),
    the key has the right number of occupied and virtual letters. *)
Definition entry_ok (w : which) (e : entry) : Prop :=
  let '(name, key, r) := e in
  1 <= r <= 4 /\ (exists suffix, name = symbol w ++ dec r ++ suffix /\ (suffix = [] \/ (r = 4 /\ (suffix = str "a" \/ suffix = str "b")))) /\
  (r < 4 \/ (w <> Wip /\ w <> Wea) -> num occ_letter key = occ_count w r /\ num vir_letter key = vir_count w r /\
    length key = occ_count w r + vir_count w r).

(** A lambda entry and its amplitude entry: same rank, name with l for t, key transposed. *)
Definition lam_related (t l : entry) : Prop :=
  let '(nt, kt, rt) := t in let '(nl, kl, rl) := l in
  rt = rl /\ (exists suffix, nt = str "t" ++ suffix /\ nl = str "l" ++ suffix) /\ (rt < 4 -> ph_transposed kt kl).
(** Method prefixes of cluster methods. *)
Definition cluster_method (m : pystr) : Prop := In m (map str ["CC"; "LCC"; "QCI"; "QCC"; "DC"]%string).

