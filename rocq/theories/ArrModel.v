(** numpy arrays with C-ordered storage: shape plus flat list of elements.
    These are the numpy primitives ebcc uses, by their documented meaning. *)
From Verif Require Import Base.
Set Implicit Arguments.

Record arr (A : Type) := mkarr { shp : list nat; dat : list A }.
Arguments mkarr {A}. Arguments shp {A}. Arguments dat {A}.

Definition prodn (l : list nat) : nat := fold_right Nat.mul 1 l.

(** All index tuples of a shape in C order. *)
Definition all_idx (s : list nat) : list (list nat) := product (map (seq 0) s).

(** [np.ravel_multi_index] for in-range indices. *)
Fixpoint ravel (s idx : list nat) : nat :=
  match s, idx with
  | _ :: s', i :: idx' => i * prodn s' + ravel s' idx'
  | _, _ => 0
  end.

(** An index tuple is within a shape. *)
Definition inb (s idx : list nat) : Prop := Forall2 (fun i n => i < n) idx s.

(** [a.size == prod(a.shape)], true of every numpy array. *)
Definition wf {A} (a : arr A) : Prop := length (dat a) = prodn (shp a).

(** [a[idx]] ([d] is only returned for out-of-range indices). *)
Definition aget {A} (d : A) (a : arr A) (idx : list nat) : A := nth (ravel (shp a) idx) (dat a) d.

(** Array of a given shape from its elements as a function of the index tuple. *)
Definition tab {A} (s : list nat) (f : list nat -> A) : arr A := mkarr s (map f (all_idx s)).

(** [np.zeros] *)
Definition full {A} (s : list nat) (v : A) : arr A := mkarr s (repeat v (prodn s)).

(** [np.reshape(a, s)] (C order). *)
Definition reshape {A} (a : arr A) (s : list nat) : result (arr A) :=
  if prodn s =? prodn (shp a) then Ok (mkarr s (dat a)) else Err ValueError.

(** [axes] is a permutation of [range(n)]. *)
Definition is_perm (n : nat) (axes : list nat) : bool :=
  (length axes =? n) && forallb (fun i => memb i axes) (seq 0 n).

(** Index tuple of the untransposed array for an index tuple of [np.transpose(a, axes)]:
    output axis [k] is input axis [axes[k]]. *)
Definition unperm (axes idx : list nat) : list nat :=
  map (fun i => match index_of i axes with Some k => nth k idx 0 | None => 0 end) (seq 0 (length axes)).

(** [np.transpose(a, axes)]; ValueError if [axes] is not a permutation of the axes. *)
Definition transpose {A} (d : A) (a : arr A) (axes : list nat) : result (arr A) :=
  if is_perm (length (shp a)) axes
  then Ok (tab (map (fun k => nth k (shp a) 0) axes) (fun idx => aget d a (unperm axes idx)))
  else Err ValueError.

(** [np.put(a, inds, vals)]: flat writes in order; [vals] is recycled when shorter (and
    nothing is written when it is empty). In-range indices only. *)
Fixpoint lupd {A} (k : nat) (v : A) (l : list A) {struct l} : list A :=
  match l, k with
  | [], _ => []
  | _ :: l', 0 => v :: l'
  | x :: l', S k' => x :: lupd k' v l'
  end.
Definition writes {A} (l : list A) (ws : list (nat * A)) : list A :=
  fold_left (fun l w => lupd (fst w) (snd w) l) ws l.
Definition put_writes {A} (d : A) (inds : list nat) (vals : list A) : list (nat * A) :=
  match vals with
  | [] => []
  | _ => map (fun k => (nth k inds 0, nth (k mod length vals) vals d)) (seq 0 (length inds))
  end.
Definition np_put {A} (d : A) (a : arr A) (inds : list nat) (vals : list A) : arr A :=
  mkarr (shp a) (writes (dat a) (put_writes d inds vals)).

(** [util.argsort] (ebcc/util/misc.py:194-207): stable sort of positions by value.
    Written as insertion sort from the right, which is stable. *)
Fixpoint argins (key : nat -> nat) (i : nat) (l : list nat) : list nat :=
  match l with
  | [] => [i]
  | j :: l' => if key i <=? key j then i :: l else j :: argins key i l'
  end.
Definition argsort_key (key : nat -> nat) (n : nat) : list nat := fold_right (argins key) [] (seq 0 n).
Definition argsort (vals : list nat) : list nat := argsort_key (fun i => nth i vals 0) (length vals).
