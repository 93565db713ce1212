(** Model of ebcc/ham/space.py.  Masks are lists of booleans.  [functools.lru_cache] and
    [cached_property] are not modelled: the masks are not changed after construction, so a cached
    value equals a fresh one. *)
From Coq Require Import QArith.
From Verif Require Import Base.
Set Implicit Arguments.
Local Open Scope nat_scope.
Local Open Scope py_scope.

Definition mask := list bool.
Definition mand (a b : mask) : mask := map (fun p => fst p && snd p) (combine a b).
Definition mnot (a : mask) : mask := map negb a.
(** [np.count_nonzero] *)
Definition msum (a : mask) : nat := length (filter (fun b => b) a).
(** [np.argmax] of a boolean array: first True, or 0; ValueError when empty. *)
Fixpoint first_true (a : mask) : option nat :=
  match a with [] => None | true :: _ => Some 0 | false :: a' => option_map S (first_true a') end.
Definition argmax (a : mask) : result nat :=
  match a with [] => Err ValueError | _ => Ok (match first_true a with Some k => k | None => 0 end) end.
(** [x[m]] for a boolean mask [m]. *)
Definition select {A} (m : mask) (x : list A) : list A := map snd (filter (fun p => fst p) (combine m x)).

(** Python slicing [x[start:stop]] with possibly negative bounds. *)
Definition norm_bound (n : nat) (i : Z) : nat :=
  Z.to_nat (if (i <? 0)%Z then Z.max 0 (i + Z.of_nat n) else Z.min i (Z.of_nat n)).
Definition pyslice {A} (s : Z * Z) (x : list A) : list A :=
  let a := norm_bound (length x) (fst s) in let b := norm_bound (length x) (snd s) in
  firstn (b - a) (skipn a x).

Record space := mkspace { sp_occupied : mask; sp_frozen : mask; sp_active : mask }.

(** space.py:53-77 [Space.__init__] *)
Definition make_space (occupied frozen active : mask) : result space :=
  if negb ((length occupied =? length frozen) && (length frozen =? length active)) then Err ValueError else
  if existsb (fun b => b) (mand frozen active) then Err ValueError
  else Ok (mkspace occupied frozen active).

(** space.py:221-380: the mask properties. *)
Definition virtual (s : space) : mask := mnot (sp_occupied s).
Definition correlated (s : space) : mask := mnot (sp_frozen s).
Definition correlated_occupied (s : space) : mask := mand (correlated s) (sp_occupied s).
Definition correlated_virtual (s : space) : mask := mand (correlated s) (virtual s).
Definition inactive (s : space) : mask := mnot (sp_active s).
Definition inactive_occupied (s : space) : mask := mand (inactive s) (sp_occupied s).
Definition inactive_virtual (s : space) : mask := mand (inactive s) (virtual s).
Definition frozen_occupied (s : space) : mask := mand (sp_frozen s) (sp_occupied s).
Definition frozen_virtual (s : space) : mask := mand (sp_frozen s) (virtual s).
Definition active_occupied (s : space) : mask := mand (sp_active s) (sp_occupied s).
Definition active_virtual (s : space) : mask := mand (sp_active s) (virtual s).
Definition nmo (s : space) : nat := length (sp_occupied s).
Definition nocc (s : space) : nat := msum (sp_occupied s).
Definition nvir (s : space) : nat := msum (virtual s).
Definition ncorr (s : space) : nat := msum (correlated s).
Definition ncocc (s : space) : nat := msum (correlated_occupied s).
Definition ncvir (s : space) : nat := msum (correlated_virtual s).
Definition ninact (s : space) : nat := msum (inactive s).
Definition niocc (s : space) : nat := msum (inactive_occupied s).
Definition nivir (s : space) : nat := msum (inactive_virtual s).
Definition nfroz (s : space) : nat := msum (sp_frozen s).
Definition nfocc (s : space) : nat := msum (frozen_occupied s).
Definition nfvir (s : space) : nat := msum (frozen_virtual s).
Definition nact (s : space) : nat := msum (sp_active s).
Definition naocc (s : space) : nat := msum (active_occupied s).
Definition navir (s : space) : nat := msum (active_virtual s).

(** The characters accepted by [size], [mask], [slice]; any other raises KeyError. *)
Definition ch_x := 120. Definition ch_o := 111. Definition ch_O := 79. Definition ch_i := 105.
Definition ch_v := 118. Definition ch_V := 86. Definition ch_a := 97.

(** space.py:92-109 [Space.size] *)
Definition sp_size (s : space) (c : nat) : result nat :=
  if c =? ch_x then Ok (ncorr s) else if c =? ch_o then Ok (ncocc s) else if c =? ch_O then Ok (naocc s) else
  if c =? ch_i then Ok (niocc s) else if c =? ch_v then Ok (ncvir s) else if c =? ch_V then Ok (navir s) else
  if c =? ch_a then Ok (nivir s) else Err KeyError.

(** space.py:111-128 [Space.mask] *)
Definition sp_mask (s : space) (c : nat) : result mask :=
  if c =? ch_x then Ok (correlated s) else if c =? ch_o then Ok (correlated_occupied s) else
  if c =? ch_O then Ok (active_occupied s) else if c =? ch_i then Ok (inactive_occupied s) else
  if c =? ch_v then Ok (correlated_virtual s) else if c =? ch_V then Ok (active_virtual s) else
  if c =? ch_a then Ok (inactive_virtual s) else Err KeyError.

(** space.py:130-152 [Space.slice] *)
Definition sp_slice (s : space) (c : nat) : result (Z * Z) :=
  m <- sp_mask s c ;;
  first <- argmax m ;;
  size <- sp_size s c ;;
  if forallb (fun b => b) (slice first (first + size) m)
  then Ok (Z.of_nat first, Z.of_nat (first + size)) else Err ValueError.

(** space.py:154-185 *)
Definition omask (s : space) (c : nat) : result mask := m <- sp_mask s c ;; Ok (select (sp_occupied s) m).
Definition vmask (s : space) (c : nat) : result mask := m <- sp_mask s c ;; Ok (select (virtual s) m).
Definition xmask (s : space) (c : nat) : result mask := m <- sp_mask s c ;; Ok (select (correlated s) m).

(** space.py:187-223 *)
Definition oslice (s : space) (c : nat) : result (Z * Z) :=
  sl <- sp_slice s c ;; Ok (fst sl, Z.min (snd sl) (Z.of_nat (nocc s))).
Definition vslice (s : space) (c : nat) : result (Z * Z) :=
  sl <- sp_slice s c ;;
  let n := Z.of_nat (nocc s) in Ok (Z.max (fst sl) n - n, snd sl - n)%Z.
Definition xslice (s : space) (c : nat) : result (Z * Z) :=
  sl <- sp_slice s c ;;
  let n := Z.of_nat (nfocc s) in Ok (fst sl - n, snd sl - n)%Z.

(** space.py:384-415 [construct_default_space]: occupation numbers as rationals. *)
Definition Qpos (q : Q) : bool := negb (Qle_bool q 0).
Definition construct_default (mo_occ : list Q) : result space :=
  make_space (map Qpos mo_occ) (repeat false (length mo_occ)) (repeat false (length mo_occ)).

(** space.py:452-504 [construct_fno_space._construct], the parts that define the space.
    [n] is the list of natural occupation numbers of the virtual block in the order used by the
    code (largest first, line 461); orbital coefficients are not modelled. *)
Fixpoint cumsum (acc : Q) (l : list Q) : list Q :=
  match l with [] => [] | x :: l' => (acc + x)%Q :: cumsum (acc + x)%Q l' end.
Definition Qsum (l : list Q) : Q := fold_right Qplus 0%Q l.
Definition active_vir (occ_tol : Q) (occ_frac : option Q) (n : list Q) : mask :=
  match occ_frac with
  | None => map (fun x => negb (Qle_bool x occ_tol)) n
  | Some f => map (fun x => Qle_bool x f) (cumsum 0 (map (fun x => (x / Qsum n)%Q) n))
  end.
Definition construct_fno (mo_occ : list Q) (occ_tol : Q) (occ_frac : option Q) (n : list Q) : result space :=
  let occ := map Qpos mo_occ in
  let no := msum occ in
  let na := msum (active_vir occ_tol occ_frac n) in
  make_space occ (repeat false (no + na) ++ repeat true (length mo_occ - no - na)) (repeat false (length mo_occ)).
