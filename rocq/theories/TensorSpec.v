(** Specification vocabulary for symmetric arrays, independent of the model's algorithms. *)
From Verif Require Import Base Alg ArrModel PermSpec.
Set Implicit Arguments.

(** A shape fits a subscript: one extent per character, equal extents for equal characters. *)
Definition extents_ok (sub : pystr) (shape : list nat) : Prop :=
  length shape = length sub /\
  forall i j, i < length sub -> j < length sub -> nth i sub 0 = nth j sub 0 -> nth i shape 0 = nth j shape 0.

(** The tuple with entries [i] and [j] exchanged. *)
Definition exchange (i j : nat) (l : list nat) : list nat :=
  map (fun k => nth (if k =? i then j else if k =? j then i else k) l 0) (seq 0 (length l)).

(** Equal characters of the subscript are adjacent ("iiaa", not "iaia"). *)
Definition blocked (sub : pystr) : Prop :=
  forall i j k, i < j -> j < k -> k < length sub -> nth i sub 0 = nth k sub 0 -> nth j sub 0 = nth i sub 0.

(** A string assigning one symmetry sign per axis, equal for axes with the same character. *)
Definition symmetry_string (sub symm : pystr) : Prop :=
  length symm = length sub /\ (forall c, In c symm -> c = 43 \/ c = 45) /\
  (forall i j, i < length sub -> j < length sub -> nth i sub 0 = nth j sub 0 -> nth i symm 0 = nth j symm 0).

(** Exchanging two axes with the same character changes the sign when [minus] says so for
    those axes and changes nothing otherwise. *)
Definition symmetric_as {K : rng} (minus : nat -> bool) (sub : pystr) (x : arr K) : Prop :=
  forall idx i j, inb (shp x) idx -> i < length sub -> j < length sub -> i <> j -> nth i sub 0 = nth j sub 0 ->
    aget r0 x (exchange i j idx) = if minus i then ropp (aget r0 x idx) else aget r0 x idx.
Definition antisymmetric {K : rng} (sub : pystr) (x : arr K) : Prop := symmetric_as (fun _ => true) sub x.
Definition totally_symmetric {K : rng} (sub : pystr) (x : arr K) : Prop := symmetric_as (fun _ => false) sub x.

(** The index tuple repeats an entry on two axes with the same character. *)
Definition has_tie (sub : pystr) (idx : list nat) : Prop :=
  exists i j, i < length sub /\ j < length sub /\ i <> j /\ nth i sub 0 = nth j sub 0 /\ nth i idx 0 = nth j idx 0.

(** No element other than zero is its own negative (true of floats, rationals, complex numbers). *)
Definition no_two_torsion (K : rng) : Prop := forall a : K, a = ropp a -> a = r0.

(** Index tuples that are decreasing along every set of axes with the same character: one
    representative per orbit. *)
Definition canonical (diag : bool) (sub : pystr) (idx : list nat) : Prop :=
  forall i j, i < j -> j < length sub -> nth i sub 0 = nth j sub 0 ->
    if diag then nth j idx 0 <= nth i idx 0 else nth j idx 0 < nth i idx 0.

(** Number of axes carrying a character, and the number of axis permutations preserving the
    subscript: the product of the factorials of the multiplicities. *)
Definition multiplicities (sub : pystr) : list nat := map (count_occ Nat.eq_dec sub) (dedup sub).
Definition stabiliser_size (sub : pystr) : nat := fold_right Nat.mul 1 (map fact (multiplicities sub)).

(** Keyword sizes agreeing with a shape: the extent of every axis, by its character. *)
Definition describes (sub : pystr) (shape : list nat) (sizes : dict nat nat) : Prop :=
  forall i, i < length sub -> dget Nat.eq_dec (nth i sub 0) sizes = Some (nth i shape 0).
