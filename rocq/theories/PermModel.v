(** Model of the combinatorial helpers of ebcc/util/permutations.py
    (lines 22-321 and 615-623). Definitions only. *)
From Verif Require Import Base.
Set Implicit Arguments.
Local Open Scope py_scope.

(** permutations.py:22-27 [factorial].  Python recursion on [n]; negative [n] recurses
    forever there and is not representable here ([nat]). *)
Fixpoint factorial (n : nat) : nat :=
  match n with
  | 0 => 1
  | S m => match m with 0 => 1 | S _ => n * factorial m end
  end.

(** permutations.py:30-44 [permute_string]: ["".join([string[i] for i in permutation])].
    An index beyond the end raises IndexError.  Simplification: indices are naturals, so
    Python's negative indices are not modelled (no caller passes any). *)
Definition permute_string (s : pystr) (perm : list nat) : result pystr :=
  mapM (fun i => match nth_error s i with Some c => Ok c | None => Err IndexError end) perm.

(** permutations.py:63-66: the table [indices] mapping each character of [string] to the
    increasing list of its positions ([i] is the enumeration counter). *)
Fixpoint char_positions (i : nat) (s : pystr) (tbl : dict nat (list nat)) : dict nat (list nat) :=
  match s with
  | [] => tbl
  | c :: s' =>
      let cur := match dget Nat.eq_dec c tbl with Some l => l | None => [] end in
      char_positions (S i) s' (dset Nat.eq_dec c (cur ++ [i]) tbl)
  end.

(** permutations.py:69-71: for each target character pop the first remaining position.
    A character that does not occur raises KeyError, an exhausted one IndexError. *)
Fixpoint take_positions (target : pystr) (tbl : dict nat (list nat)) : result (list nat) :=
  match target with
  | [] => Ok []
  | c :: t' =>
      match dget Nat.eq_dec c tbl with
      | None => Err KeyError
      | Some [] => Err IndexError
      | Some (p :: ps) =>
          match take_positions t' (dset Nat.eq_dec c ps tbl) with
          | Ok r => Ok (p :: r)
          | Err e => Err e
          end
      end
  end.

(** permutations.py:47-73 [get_string_permutation]. *)
Definition get_string_permutation (s target : pystr) : result (list nat) :=
  take_positions target (char_positions 0 s []).

(** All index tuples of an array with [dims] axes of extent [n], in C order
    (the positions of [mask] in permutations.py:106-108). *)
Definition grid (n dims : nat) : list (list nat) := product (repeat (seq 0 n) dims).

(** permutations.py:97-104: the mask: conjunction over neighbouring axes of [x > y]
    ([x >= y] with [include_diagonal]). *)
Fixpoint tril_mask (diag : bool) (t : list nat) : bool :=
  match t with
  | x :: ((y :: _) as t') => (if diag then Nat.leb y x else Nat.ltb y x) && tril_mask diag t'
  | _ => true
  end.

(** The selected index tuples, one per column of the arrays returned by
    [tril_indices_ndim] (permutations.py:106-110); for [dims == 1] every index
    (lines 90-91). *)
Definition tril_tuples (n dims : nat) (diag : bool) : list (list nat) :=
  filter (tril_mask diag) (grid n dims).

(** permutations.py:76-110 [tril_indices_ndim]: one index array per dimension.
    [dims == 0] makes [functools.reduce] raise TypeError on an empty sequence. *)
Definition tril_indices_ndim (n dims : nat) (diag : bool) : result (list (list nat)) :=
  match dims with
  | 0 => Err TypeError
  | 1 => Ok [seq 0 n]
  | _ => Ok (map (fun d => map (fun t => nth d t 0) (tril_tuples n dims diag)) (seq 0 dims))
  end.

(** [itertools.combinations(l, k)]. *)
Fixpoint combinations (l : list nat) (k : nat) : list (list nat) :=
  match k, l with
  | 0, _ => [[]]
  | S _, [] => []
  | S k', x :: l' => map (cons x) (combinations l' k') ++ combinations l' k
  end.

(** [itertools.combinations_with_replacement(l, k)]. *)
Fixpoint combinations_wr (l : list nat) (k : nat) {struct l} : list (list nat) :=
  match l with
  | [] => match k with 0 => [[]] | S _ => [] end
  | x :: l' =>
      (fix go (k : nat) : list (list nat) :=
         match k with
         | 0 => [[]]
         | S k' => map (cons x) (go k') ++ combinations_wr l' (S k')
         end) k
  end.

(** permutations.py:113-120 [ntril_ndim] (lines 122-131 are unreachable). *)
Definition ntril_ndim (n dims : nat) (diag : bool) : nat :=
  if diag then length (combinations_wr (seq 0 n) dims)
  else length (combinations (seq 0 n) dims).

(** The characters ['a'] and ['b']. *)
Definition ch_a := 97.
Definition ch_b := 98.

(** ["ab" * n] and ["ba" * n] (permutations.py:174,176). *)
Fixpoint repeat_str (s : pystr) (n : nat) : pystr :=
  match n with 0 => [] | S m => s ++ repeat_str s m end.

(** permutations.py:160-178, body of the loop over the product, [check] being the set of
    canonical strings seen so far. *)
Fixpoint spin_loop (n : nat) (excited unique : bool) (check : list pystr) (tups : list pystr)
  : list pystr :=
  match tups with
  | [] => []
  | tup :: rest =>
      let comb0 := tup ++ tup in
      let comb := if excited then removelast comb0 else comb0 in
      if unique then
        let sorted_comb := sorted_py (firstn n comb) ++ sorted_py (skipn n comb) in
        if existsb (streqb sorted_comb) check then spin_loop n excited unique check rest
        else
          let comb' :=
            if excited then comb
            else
              let na := count (firstn n comb) ch_a in
              let nb := count (firstn n comb) ch_b in
              if (na =? n / 2) && (nb =? n - n / 2) then
                repeat_str (firstn n (repeat_str [ch_a; ch_b] n)) 2
              else if (na =? n - n / 2) && (nb =? n / 2) then
                repeat_str (firstn n (repeat_str [ch_b; ch_a] n)) 2
              else comb in
          comb' :: spin_loop n excited unique (sorted_comb :: check) rest
      else comb :: spin_loop n excited unique check rest
  end.

(** permutations.py:134-178 [generate_spin_combinations] (the generator's full output). *)
Definition generate_spin_combinations (n : nat) (excited unique : bool) : list pystr :=
  spin_loop n excited unique [] (product (repeat [ch_a; ch_b] n)).

(** permutations.py:203: [item[:i] + seq[-1:] + item[i:]]. *)
Definition insert_at {A} (i : nat) (x : A) (item : list A) : list A :=
  firstn i item ++ [x] ++ skipn i item.

(** permutations.py:198-203: the loop over the permutations of the shorter sequence;
    [i] is the enumeration counter: odd -> ascending, even -> descending positions. *)
Fixpoint insert_all {A} (i : nat) (x : A) (items : list (list A)) : list (list A) :=
  match items with
  | [] => []
  | item :: rest =>
      let inds := if Nat.odd i then seq 0 (length item + 1) else rev (seq 0 (length item + 1)) in
      map (fun j => insert_at j x item) inds ++ insert_all (S i) x rest
  end.

(** permutations.py:193-205 [_permutations]; the recursion strips the last item, so it is
    written on the reversed sequence ([seq[-1]] is the head). *)
Fixpoint perms_rev {A} (rseq : list A) : list (list A) :=
  match rseq with
  | [] => [[]]
  | x :: rseq' => insert_all 0 x (perms_rev rseq')
  end.

(** [enumerate] with sign: permutations.py:207. *)
Fixpoint attach_signs {A} (i : nat) (l : list A) : list (A * Z) :=
  match l with
  | [] => []
  | x :: l' => (x, (if Nat.odd i then -1 else 1)%Z) :: attach_signs (S i) l'
  end.

(** permutations.py:181-207 [permutations_with_signs]. *)
Definition permutations_with_signs {A} (sq : list A) : list (list A * Z) :=
  attach_signs 0 (perms_rev (rev sq)).

(** permutations.py:227-229: exponent [ntot] of [get_symmetry_factor] (lines 210-230); the
    factor itself is [1 / 2 ^ ntot] (see [symmetry_factor] users in TensorModel). *)
Definition symmetry_exponent (numbers : list nat) : nat :=
  fold_left (fun acc n => acc + Nat.max 0 (n - 1)) numbers 0.

(** permutations.py:271-273 [is_mixed_spin]: [len(set(spin)) != 1]. *)
Definition is_mixed_spin (spin : list nat) : bool := negb (length (dedup spin) =? 1).

(** permutations.py:615-623 [unique]: loop with a [done] set. *)
Fixpoint unique_loop (done : list nat) (l : list nat) : list nat :=
  match l with
  | [] => []
  | x :: l' => if memb x done then unique_loop done l' else x :: unique_loop (x :: done) l'
  end.
Definition unique (l : list nat) : list nat := unique_loop [] l.

(** permutations.py:309: [key = tuple(s[i] for s in subscripts)] for every position,
    given subscripts of equal length (checked at 301-302). *)
Definition column {A} (d : A) (ss : list (list A)) (i : nat) : list A := map (fun s => nth i s d) ss.

(** permutations.py:304-321: loop state is [char_map], the counter [j]. Characters are code
    points; [sizes = None]/[{}] is the empty dictionary (both falsy: line 318). *)
Fixpoint combine_loop (sizes : dict pystr nat) (keys : list pystr) (cmap : dict pystr nat) (j : nat)
  : result (pystr * list (nat * nat)) :=
  match keys with
  | [] => Ok ([], [])
  | key :: rest =>
      let alloc :=
        match dget pystr_eq_dec key cmap with
        | Some c => Ok (c, cmap, j)
        | None =>
            if j =? 91 then Err ValueError
            else let c := 97 + j in
                 let j1 := S j in
                 let j2 := if j1 =? 123 then 65 else j1 in
                 Ok (c, dset pystr_eq_dec key c cmap, j2)
        end in
      match alloc with
      | Err e => Err e
      | Ok (c, cmap', j') =>
          let entry :=
            match sizes with
            | [] => Ok []
            | _ => match dget pystr_eq_dec key sizes with
                   | Some n => Ok [(c, n)]
                   | None => Err KeyError
                   end
            end in
          match entry with
          | Err e => Err e
          | Ok en =>
              match combine_loop sizes rest cmap' j' with
              | Err e => Err e
              | Ok (sub, szs) => Ok (c :: sub, en ++ szs)
              end
          end
      end
  end.

(** [new_sizes]: later assignments to the same character overwrite (line 319). *)
Definition collect_sizes (l : list (nat * nat)) : dict nat nat :=
  fold_left (fun d p => dset Nat.eq_dec (fst p) (snd p) d) l [].

(** permutations.py:276-321 [combine_subscripts]. With no subscripts at all
    [set()] has length 0, so ValueError too. *)
Definition combine_subscripts (subscripts : list pystr) (sizes : dict pystr nat)
  : result (pystr * dict nat nat) :=
  if negb (length (dedup (map (@length nat) subscripts)) =? 1) then Err ValueError
  else
    match subscripts with
    | [] => Err ValueError
    | s0 :: _ =>
        r <- combine_loop sizes (map (column 0 subscripts) (seq 0 (length s0))) [] 0 ;;
        Ok (fst r, collect_sizes (snd r))
    end.
