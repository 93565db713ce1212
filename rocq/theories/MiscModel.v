(** Model of ebcc/util/misc.py: [Namespace], [Timer.format_time], [prod], [argsort], [regularise_tuple].
    Not modelled: [Timer.lap]/[total] (wall clock), option base class, [__repr__]. *)
From Coq Require Import QArith Qround String.
From Verif Require Import Base.
Set Implicit Arguments.
Local Open Scope nat_scope.
Local Open Scope list_scope.

(** * Namespace (misc.py:52-139)

    An object is its [_members] dictionary.  A program works on several objects, so the state is the
    list of objects created so far; an operation names its object by position.  Values are an arbitrary
    type with an equality test [veqb] (Python's [==] on the values). *)
Section Namespace.
  Variables (V : Type) (veqb : V -> V -> bool).
  (** Names found by normal attribute lookup, so that [__getattr__] is never called for them: the methods
      of the class and of its bases, and [_members], which is in the instance [__dict__]. *)
  Variable class_names : list pystr.

  Definition ns := dict pystr V.
  Definition nget (k : pystr) (d : ns) := dget pystr_eq_dec k d.
  Definition nset (k : pystr) (v : V) (d : ns) : ns := dset pystr_eq_dec k v d.
  Definition ndel (k : pystr) (d : ns) : ns := ddel pystr_eq_dec k d.
  Definition is_class_name (k : pystr) : bool := existsb (streqb k) class_names.

  Inductive op :=
  | New (kw : list (pystr * V)) | SetItem (o : nat) (k : pystr) (v : V) | SetAttr (o : nat) (k : pystr) (v : V)
  | GetItem (o : nat) (k : pystr) | GetAttr (o : nat) (k : pystr) | DelItem (o : nat) (k : pystr) | DelAttr (o : nat) (k : pystr)
  | Contains (o : nat) (k : pystr) | Len (o : nat) | Keys (o : nat) | Values (o : nat) | Items (o : nat)
  | Copy (o : nat) | Equal (o o' : nat)
  | Get (o : nat) (k : pystr) (v : V) | Pop (o : nat) (k : pystr) (v : option V) | Popitem (o : nat)
  | Setdefault (o : nat) (k : pystr) (v : V) | Update (o : nat) (kw : list (pystr * V)) | Clear (o : nat).

  Inductive resp :=
  | RNone | RObj (o : nat) | RVal (v : V) | RBuiltin (k : pystr) | RBool (b : bool) | RNat (n : nat)
  | RKeys (l : list pystr) | RValues (l : list V) | RItems (l : list (pystr * V)) | RPair (k : pystr) (v : V)
  | RErr (e : err) | RNoObject.

  Definition ns_init (kw : list (pystr * V)) : ns := fold_left (fun d p => nset (fst p) (snd p) d) kw [].
  (** [_members.pop(key)] *)
  Definition ns_delitem (d : ns) (k : pystr) : ns * resp :=
    match nget k d with Some _ => (ndel k d, RNone) | None => (d, RErr KeyError) end.
  Definition ns_getitem (d : ns) (k : pystr) : resp :=
    match nget k d with Some v => RVal v | None => RErr KeyError end.
  (** [__getattr__] is reached only if normal lookup fails. *)
  Definition ns_getattr (d : ns) (k : pystr) : resp :=
    if is_class_name k then RBuiltin k else
    match ns_getitem d k with RErr KeyError => RErr AttributeError | r => r end.
  (** [dict(self) == dict(other)] *)
  Definition ns_eq (d d' : ns) : bool :=
    (length d =? length d') &&
    forallb (fun p => match nget (fst p) d' with Some w => veqb (snd p) w | None => false end) d.
  (** The mixin methods of [collections.abc.MutableMapping], written with the methods above as in CPython. *)
  Definition ns_popitem (d : ns) : ns * resp :=
    match d with
    | [] => (d, RErr KeyError)
    | (k, _) :: _ => match ns_getitem d k with
                     | RVal v => (fst (ns_delitem d k), RPair k v)
                     | r => (d, r) end
    end.
  Fixpoint ns_clear (fuel : nat) (d : ns) : ns :=
    match fuel with
    | 0 => d
    | S n => match ns_popitem d with (_, RErr KeyError) => d | (d', _) => ns_clear n d' end
    end.

  Definition step_obj (d : ns) (a : op) : ns * resp :=
    match a with
    | SetItem _ k v | SetAttr _ k v => (nset k v d, RNone)
    | GetItem _ k => (d, ns_getitem d k)
    | GetAttr _ k => (d, ns_getattr d k)
    | DelItem _ k | DelAttr _ k => ns_delitem d k
    | Contains _ k => (d, RBool (dmem pystr_eq_dec k d))
    | Len _ => (d, RNat (length d))
    | Keys _ => (d, RKeys (map fst d))
    | Values _ => (d, RValues (map snd d))
    | Items _ => (d, RItems d)
    | Get _ k v => (d, match ns_getitem d k with RErr KeyError => RVal v | r => r end)
    | Pop _ k dflt => match ns_getitem d k with
                      | RErr KeyError => match dflt with None => (d, RErr KeyError) | Some v => (d, RVal v) end
                      | RVal v => (fst (ns_delitem d k), RVal v)
                      | r => (d, r) end
    | Popitem _ => ns_popitem d
    | Setdefault _ k v => match ns_getitem d k with
                          | RErr KeyError => (nset k v d, RVal v) | r => (d, r) end
    | Update _ kw => (fold_left (fun d p => nset (fst p) (snd p) d) kw d, RNone)
    | Clear _ => (ns_clear (S (length d)) d, RNone)
    | New _ | Copy _ | Equal _ _ => (d, RNone)
    end.

  Definition target (a : op) : option nat :=
    match a with
    | New _ | Copy _ | Equal _ _ => None
    | SetItem o _ _ | SetAttr o _ _ | GetItem o _ | GetAttr o _ | DelItem o _ | DelAttr o _ | Contains o _ | Len o
    | Keys o | Values o | Items o | Get o _ _ | Pop o _ _ | Popitem o | Setdefault o _ _ | Update o _ | Clear o => Some o
    end.

  Definition heap := list ns.
  Fixpoint set_nth {A} (i : nat) (x : A) (l : list A) : list A :=
    match l, i with [], _ => [] | _ :: l', 0 => x :: l' | y :: l', S i' => y :: set_nth i' x l' end.

  Definition step (h : heap) (a : op) : heap * resp :=
    match a with
    | New kw => (h ++ [ns_init kw], RObj (length h))
    | Copy o => match nth_error h o with
                | Some d => (h ++ [ns_init d], RObj (length h)) | None => (h, RNoObject) end
    | Equal o o' => match nth_error h o, nth_error h o' with
                    | Some d, Some d' => (h, RBool (ns_eq d d')) | _, _ => (h, RNoObject) end
    | _ => match target a with
           | None => (h, RNone)
           | Some o => match nth_error h o with
                       | None => (h, RNoObject)
                       | Some d => (set_nth o (fst (step_obj d a)) h, snd (step_obj d a)) end
           end
    end.

  Fixpoint run (h : heap) (l : list op) : list resp :=
    match l with [] => [] | a :: l' => snd (step h a) :: run (fst (step h a)) l' end.
End Namespace.
Arguments GetItem {V}. Arguments GetAttr {V}. Arguments DelItem {V}. Arguments DelAttr {V}. Arguments Contains {V}.
Arguments Len {V}. Arguments Keys {V}. Arguments Values {V}. Arguments Items {V}. Arguments Copy {V}. Arguments Equal {V}.
Arguments Popitem {V}. Arguments Clear {V}.
Arguments RNone {V}. Arguments RObj {V}. Arguments RBuiltin {V}. Arguments RBool {V}. Arguments RNat {V}.
Arguments RKeys {V}. Arguments RErr {V}. Arguments RNoObject {V}.

(** Public names of the class, for the examples. *)
Definition public_names : list pystr :=
  map str ["keys"; "values"; "items"; "copy"; "get"; "pop"; "popitem"; "clear"; "update"; "setdefault"; "_members"]%string.

(** * Timer.format_time (misc.py:166-185): durations are non-negative rationals; "%d" truncates.
    The result is modelled as the list of (number, unit) pieces joined by spaces. *)
Inductive unit_ := Hour | Minute | Second | Millisecond.
(** Decimal rendering of "%d" is not modelled: a piece is the number and its unit. *)
Definition divmodQ (x : Q) (d : Z) : Z * Q :=
  let q := Qfloor (x / inject_Z d) in (q, x - inject_Z (q * d))%Q.
Definition format_pieces (seconds : Q) : list (Z * unit_) :=
  let '(s0, f) := divmodQ seconds 1 in
  let ms := (f * 1000)%Q in
  let '(m0, s) := (Z.div s0 60, Z.modulo s0 60) in
  let '(h, m) := (Z.div m0 60, Z.modulo m0 60) in
  (if Z.eqb h 0 then [] else [(h, Hour)]) ++
  (if Z.eqb m 0 then [] else [(m, Minute)]) ++
  (if Z.eqb s 0 then [] else [(s, Second)]) ++
  (if Qeq_bool ms 0 then [] else [(Qfloor ms, Millisecond)]).
(** [out[-n:]] for a non-negative [n]: everything when [n = 0]. *)
Definition last_n {A} (n : nat) (l : list A) : list A :=
  if n =? 0 then l else skipn (length l - n) l.
Definition format_time (seconds : Q) (precision : nat) : list (Z * unit_) :=
  let out := format_pieces seconds in last_n (Nat.max precision (length out)) out.

(** misc.py:188-193 [prod] *)
Definition prod_ints (l : list Z) : Z := fold_left (fun out v => (out * v)%Z) l 1%Z.

(** misc.py:212-236 [regularise_tuple]: an argument is an item or a tuple/list of items. *)
Inductive arg (A : Type) := Item (a : A) | Tup (l : list (arg A)).
Arguments Item {A} a.
Arguments Tup {A} l.
Definition regularise_tuple {A} (items : list (arg A)) : result (list (arg A)) :=
  match items with
  | [] => Err IndexError
  | Tup l :: rest => match rest with [] => Ok l | _ :: _ => Err ValueError end
  | Item _ :: _ => Ok items
  end.
