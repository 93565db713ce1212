(** What a dictionary is, and what an elapsed time shows. *)
From Coq Require Import QArith Qround.
From Verif Require Import Base MiscModel.
Set Implicit Arguments.
Local Open Scope nat_scope.

(** A dictionary: a finite map with the order in which its keys were inserted. *)
Record sdict (V : Type) := mkd { order : list pystr; look : pystr -> option V }.
Section Spec.
  Variables (V : Type) (veqb : V -> V -> bool) (class_names : list pystr).
  Implicit Types D : sdict V.
  Definition empty : sdict V := mkd [] (fun _ => None).
  Definition put D k v : sdict V :=
    mkd (if in_dec pystr_eq_dec k (order D) then order D else order D ++ [k])
        (fun j => if pystr_eq_dec j k then Some v else look D j).
  Definition drop D k : sdict V :=
    mkd (filter (fun j => negb (streqb j k)) (order D)) (fun j => if pystr_eq_dec j k then None else look D j).
  Definition put_all D (kw : list (pystr * V)) : sdict V := fold_left (fun D p => put D (fst p) (snd p)) kw D.

  (** Answer of a dictionary to one operation, and the dictionary afterwards. *)
  Definition answers D (a : op V) (D' : sdict V) (r : resp V) : Prop :=
    match a with
    | SetItem _ k v | SetAttr _ k v => r = RNone /\ D' = put D k v
    | GetItem _ k => D' = D /\ match look D k with Some v => r = RVal v | None => r = RErr KeyError end
    | GetAttr _ k => D' = D /\
        ((In k class_names /\ r = RBuiltin k) \/
         (~ In k class_names /\ match look D k with Some v => r = RVal v | None => r = RErr AttributeError end))
    | DelItem _ k | DelAttr _ k =>
        match look D k with Some _ => r = RNone /\ D' = drop D k | None => r = RErr KeyError /\ D' = D end
    | Contains _ k => D' = D /\ exists b, r = RBool b /\ (b = true <-> look D k <> None)
    | Len _ => D' = D /\ r = RNat (length (order D))
    | Keys _ => D' = D /\ r = RKeys (order D)
    | Values _ => D' = D /\ exists l, r = RValues l /\ map Some l = map (look D) (order D)
    | Items _ => D' = D /\ exists l, r = RItems l /\ map (fun p => (fst p, Some (snd p))) l = map (fun k => (k, look D k)) (order D)
    | Get _ k v => D' = D /\ r = RVal (match look D k with Some w => w | None => v end)
    | Pop _ k dflt => match look D k with
                      | Some w => r = RVal w /\ D' = drop D k
                      | None => D' = D /\ r = match dflt with Some v => RVal v | None => RErr KeyError end end
    | Popitem _ => match order D with
                   | [] => r = RErr KeyError /\ D' = D
                   | k :: _ => exists v, look D k = Some v /\ r = RPair k v /\ D' = drop D k end
    | Setdefault _ k v => match look D k with
                          | Some w => r = RVal w /\ D' = D | None => r = RVal v /\ D' = put D k v end
    | Update _ kw => r = RNone /\ D' = put_all D kw
    | Clear _ => r = RNone /\ order D' = [] /\ (forall k, look D' k = None)
    | New _ | Copy _ | Equal _ _ => False
    end.

  (** Two dictionaries are equal when they hold the same keys with equal values, in any order. *)
  Definition same_content D D' : Prop :=
    forall k, match look D k, look D' k with
              | Some v, Some w => veqb v w = true | None, None => True | _, _ => False end.

  (** A program over several dictionaries. *)
  Definition sstep (H : list (sdict V)) (a : op V) (H' : list (sdict V)) (r : resp V) : Prop :=
    match a with
    | New kw => H' = H ++ [put_all empty kw] /\ r = RObj (length H)
    | Copy o => match nth_error H o with
                | None => H' = H /\ r = RNoObject
                | Some D => r = RObj (length H) /\
                    exists D', H' = H ++ [D'] /\ order D' = order D /\ forall k, look D' k = look D k end
    | Equal o o' => H' = H /\
        match nth_error H o, nth_error H o' with
        | Some D, Some D' => exists b, r = RBool b /\ (b = true <-> same_content D D')
        | _, _ => r = RNoObject end
    | _ => match target a with
           | None => False
           | Some o => match nth_error H o with
                       | None => H' = H /\ r = RNoObject
                       | Some D => exists D', answers D a D' r /\ length H' = length H /\ nth_error H' o = Some D' /\
                                   forall i, i <> o -> nth_error H' i = nth_error H i end
           end
    end.
  Fixpoint sruns (H : list (sdict V)) (l : list (op V)) (rs : list (resp V)) : Prop :=
    match l, rs with
    | [], [] => True
    | a :: l', r :: rs' => exists H', sstep H a H' r /\ sruns H' l' rs'
    | _, _ => False
    end.
End Spec.

(** Length of one unit, in milliseconds. *)
Definition unit_ms (u : unit_) : Z :=
  match u with Hour => 3600000 | Minute => 60000 | Second => 1000 | Millisecond => 1 end.
Definition total_ms (l : list (Z * unit_)) : Z := fold_right (fun p acc => (fst p * unit_ms (snd p) + acc)%Z) 0%Z l.
(** The number of each unit is below the next larger unit. *)
Definition in_range (p : Z * unit_) : Prop :=
  match snd p with Hour => (0 < fst p)%Z | Minute | Second => (0 < fst p < 60)%Z | Millisecond => (0 <= fst p < 1000)%Z end.
