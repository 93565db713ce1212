(** Vocabulary for tailored and externally corrected calculations. *)
From Coq Require Import String.
From Verif Require Import Base Alg ArrModel SpaceModel AnsatzModel VecModel CcModel CcSpec ExtModel.
Set Implicit Arguments.
Local Open Scope nat_scope.
Local Open Scope list_scope.

(** * Where an orbital sits along an axis of an amplitude. *)
Definition occupied_at (s : space) (p : nat) : bool := nth p (sp_occupied s) false.
Definition frozen_at (s : space) (p : nat) : bool := nth p (sp_frozen s) false.
Definition active_at (s : space) (p : nat) : bool := nth p (sp_active s) false.
(** Orbital [p] belongs to class [c]. *)
Definition in_class (s : space) (c p : nat) : bool :=
  if c =? chr_of "o" then occupied_at s p && negb (frozen_at s p) else
  if c =? chr_of "O" then occupied_at s p && active_at s p else
  if c =? chr_of "i" then occupied_at s p && negb (active_at s p) else
  if c =? chr_of "v" then negb (occupied_at s p) && negb (frozen_at s p) else
  if c =? chr_of "V" then negb (occupied_at s p) && active_at s p else
  if c =? chr_of "a" then negb (occupied_at s p) && negb (active_at s p) else false.
Definition class_letters : list nat := str "oOivVa".
Definition orbitals (s : space) (c : nat) : list nat := filter (in_class s c) (seq 0 (length (sp_occupied s))).
(** An occupied axis runs over the correlated occupied orbitals, a virtual one over the correlated virtual orbitals: the
    position of [p] is the number of these before it. *)
Definition axis_position (s : space) (p : nat) : nat :=
  length (filter (fun q => Bool.eqb (occupied_at s q) (occupied_at s p) && negb (frozen_at s q)) (seq 0 p)).
Definition positions (s : space) (c : nat) : list nat := map (axis_position s) (orbitals s c).
(** No frozen orbital is in class [c] or comes before a member of it in its sector. *)
Definition frozen_beyond (s : space) (c : nat) : Prop :=
  forall p q, p <= q -> q < length (sp_occupied s) -> in_class s c q = true -> occupied_at s p = occupied_at s q -> frozen_at s p = false.
(** The axis along which class [c] lies: all correlated occupied, or all correlated virtual, orbitals. *)
Definition sector_letter (s : space) (c : nat) : nat := if memb c (str "ioO") then chr_of "o" else chr_of "v".
Definition valid_space (s : space) : Prop := make_space (sp_occupied s) (sp_frozen s) (sp_active s) = Ok s.

(** Element [js] of a block whose axes run over the given lists of positions is this element of the amplitude. *)
Definition placed (ps : list (list nat)) (js : list nat) : list nat := map (fun p => nth (snd p) (fst p) 0) (combine ps js).

Section Arrays.
  Variable F : fld.
  Local Open Scope rng_scope.
  (** [y] is [x] with the block at [ps] replaced by [v]. *)
  Definition replaced (ps : list (list nat)) (x v y : arr F) : Prop :=
    wf y /\ shp y = shp x /\
    (forall js, inb (shp v) js -> inb (shp y) (placed ps js) /\ aget 0 y (placed ps js) = aget 0 v js) /\
    (forall idx, inb (shp x) idx -> (forall js, inb (shp v) js -> idx <> placed ps js) -> aget 0 y idx = aget 0 x idx).
  (** What a block [v] at [ps] contributes to element [idx]. *)
  Definition scattered (ps : list (list nat)) (v : arr F) (idx : list nat) : F :=
    rsum (map (fun js => if list_eq_dec Nat.eq_dec (placed ps js) idx then aget 0 v js else 0) (all_idx (shp v))).
  (** The sum of the contributions of all blocks of a correction to element [idx]; [pos] gives the positions for index letters. *)
  Definition contributions (pos : pystr -> list (list nat)) (blocks : dict pystr (arr F)) (idx : list nat) : F :=
    rsum (map (fun kv => scattered (pos (fst kv)) (snd kv) idx) blocks).
End Arrays.
Arguments replaced {F}. Arguments scattered {F}. Arguments contributions {F}.
(** Residuals come under the names of fermionic amplitudes followed by "new". *)
Definition residual_names {A} (fs : list entry) (res : dict pystr A) : Prop :=
  NoDup (map fst res) /\ forall k, In k (map fst res) -> exists e, In e fs /\ k = fst (fst e) ++ str "new".

(** An array for the classes [key]. *)
Definition shaped {A} (s : space) (key : pystr) (x : arr A) : Prop := wf x /\ shp x = map (fun k => length (orbitals s k)) key.
(** ... with a spin for every axis. *)
Definition spin_space_of (sa sb : space) (c : nat) : space := if c =? chr_of "a" then sa else sb.
Definition u_shaped {A} (sa sb : space) (comb key : pystr) (x : arr A) : Prop :=
  wf x /\ shp x = map (fun sk => length (orbitals (spin_space_of sa sb (fst sk)) (snd sk))) (combine comb key).
Definition u_positions (sa sb : space) (comb key : pystr) : list (list nat) :=
  map (fun sk => positions (spin_space_of sa sb (fst sk)) (snd sk)) (combine comb key).

(** * Lexically scoped updates. *)
Section Lexical.
  Variables (E N X : Type) (set_active : N -> N -> result N) (add : N -> X -> result N)
    (corrections : part -> option E -> N -> result X) (external : N -> result (N * N)) (get_eris : result E) (complete : N -> N -> N)
    (objs : nat -> option (kind * N)).
  Local Open Scope py_scope.
  (** The update in force inside context object [i], given the one outside. *)
  Definition wrapped (i : nat) (u : update_fn E N) : result (update_fn E N) :=
    match objs i with
    | None => Err NameError
    | Some (Tailor, active) => Ok (fun e a => x <- u e a ;; set_active x active)
    | Some (Correct s, user) =>
        eris <- get_eris ;; xu <- external user ;;
        ext <- corrections External (Some eris) (fst xu) ;;
        match s with
        | Ignore => Ok (fun e a => x <- u e a ;; add x ext)
        | Fixed => mix <- corrections Mixed (Some eris) (fst xu) ;; Ok (fun e a => x <- u e a ;; y <- add x ext ;; add y mix)
        | Update => _ <- corrections Mixed (Some eris) (fst xu) ;;
            Ok (fun e a => match a with
                           | None => Err ValueError
                           | Some t => mix <- corrections Mixed e (complete t (snd xu)) ;; x <- u e a ;; y <- add x ext ;; add y mix
                           end)
        end
    end.
  Fixpoint lexical (p : cprog E N) (u : update_fn E N) : list (result N) * bool :=
    match p with
    | CDone => ([], true)
    | CRaise => ([], false)
    | CCall e a rest => match u e a with Ok x => let '(o, b) := lexical rest u in (Ok x :: o, b) | Err er => ([Err er], false) end
    | CWith i body rest =>
        match wrapped i u with
        | Err _ => ([], false)
        | Ok u' => let '(o, b) := lexical body u' in
                   if b then let '(o', b') := lexical rest u in (o ++ o', b') else (o, false)
        end
    | CTry body rest => let '(o, _) := lexical body u in let '(o', b') := lexical rest u in (o ++ o', b')
    end.
  (** The user's amplitudes survive entering the context. *)
  Definition preserved (i : nat) : Prop :=
    match objs i with Some (Correct _, user) => forall x user', external user = Ok (x, user') -> user' = user | _ => True end.
  Fixpoint entered (p : cprog E N) : list nat :=
    match p with
    | CDone | CRaise => []
    | CCall _ _ rest => entered rest
    | CWith i body rest => i :: entered body ++ entered rest
    | CTry body rest => entered body ++ entered rest
    end.
  (** No context object is entered inside itself; one whose amplitudes do not survive is entered once. *)
  Fixpoint well_nested (p : cprog E N) : Prop :=
    match p with
    | CDone | CRaise => True
    | CCall _ _ rest => well_nested rest
    | CWith i body rest => ~ In i (entered body) /\ well_nested body /\ well_nested rest /\
        (forall j, In j (i :: entered body) -> In j (entered rest) -> preserved j)
    | CTry body rest => well_nested body /\ well_nested rest /\ (forall j, In j (entered body) -> In j (entered rest) -> preserved j)
    end.
  (** No context object is entered inside itself. *)
  Fixpoint no_self (p : cprog E N) : Prop :=
    match p with
    | CDone | CRaise => True
    | CCall _ _ rest => no_self rest
    | CWith i body rest => ~ In i (entered body) /\ no_self body /\ no_self rest
    | CTry body rest => no_self body /\ no_self rest
    end.
  Fixpoint depth (p : cprog E N) : nat :=
    match p with
    | CDone | CRaise => 0
    | CCall _ _ rest => depth rest
    | CWith i body rest => Nat.max (S (depth body)) (depth rest)
    | CTry body rest => Nat.max (depth body) (depth rest)
    end.
End Lexical.
