(** Model of the conversion of amplitudes between restricted, unrestricted and general calculations:
    [UEBCC.from_rebcc] (ebcc/cc/uebcc.py:107-187) and [GEBCC.from_uebcc], [GEBCC.from_rebcc]
    (ebcc/cc/gebcc.py:111-346).  Modelled: the dictionaries of amplitudes and multipliers.  Not modelled: the
    construction of the new object (mean field, spaces, options: see CoreModel.v), and [get_ghf_orbspin], which
    decides on the positions of the alpha and beta orbitals; they are the argument [slices]. *)
From Coq Require Import String.
From Verif Require Import Base Alg ArrModel PermModel TensorModel AnsatzModel.
Local Open Scope list_scope.
Set Implicit Arguments.
Local Open Scope py_scope.

Section Convert.
  Variable F : fld.
  Local Notation array := (arr F).

  (** Amplitudes of an unrestricted calculation: spin blocks, or one array (bosons). *)
  Inductive uamp := Spin (blocks : dict pystr array) | Whole (a : array).

  (** [amplitudes[name]] of a [Namespace]: KeyError if there is no such entry. *)
  Definition lookup_amp {A} (d : dict pystr A) (name : pystr) : result A :=
    match dget pystr_eq_dec name d with Some v => Ok v | None => Err KeyError end.

  (** uebcc.py:141-150 (and 163-170): [symmetrise(subscript, tn, symmetry="-" * 2 * n)] for every spin block. *)
  Definition spin_blocks_of (key : pystr) (n : nat) (tn : array) : result (dict pystr array) :=
    mapM (fun comb =>
            sub <- combine_subscripts [key; comb] [] ;;
            r <- symmetrise F (Some half_pow) (fst sub) tn (Some (repeat ch_minus (2 * n))) ;;
            Ok (comb, r))
         (generate_spin_combinations n false true).

  (** uebcc.py:132-187.  [lams] chooses between amplitudes (lines 135-157, with the check of line 136) and
      multipliers (lines 161-183), whose names are [name.replace("t", "l")] and ["l" + name]. *)
  Definition fname (lams : bool) (name : pystr) : pystr := if lams then replace_all (str "t"%string) (str "l"%string) name else name.
  Definition bname (lams : bool) (name : pystr) : pystr := if lams then str "l"%string ++ name else name.
  Definition from_rebcc (lams : bool) (a : ansatz) (amps : dict pystr array) : result (dict pystr uamp) :=
    fr <- fermionic_cluster_ranks a false Wt ;;
    fs <- mapM (fun e : pystr * pystr * nat =>
                  match e with (name, key, n) =>
                    if negb lams && (3 <? n) then Err ModelNotImplemented
                    else tn <- lookup_amp amps (fname lams name) ;; bs <- spin_blocks_of key n tn ;; Ok (fname lams name, Spin bs)
                  end) fr ;;
    br <- bosonic_cluster_ranks a Wt ;;
    bs <- mapM (fun e : pystr * pystr * nat =>
                  match e with (name, _, _) => tn <- lookup_amp amps (bname lams name) ;; Ok (bname lams name, Whole tn) end) br ;;
    cr <- coupling_cluster_ranks a Wt ;;
    cs <- mapM (fun e : pystr * pystr * nat * nat =>
                  match e with (name, _, nf, _) =>
                    tn <- lookup_amp amps (bname lams name) ;;
                    Ok (bname lams name, Spin (map (fun comb => (comb, tn)) (generate_spin_combinations nf false true)))
                  end) cr ;;
    Ok (fs ++ bs ++ cs)%list.

  (** * Unrestricted to general *)
  (** Positions, within the orbitals of class [k] ('o', 'v', ...) of the general calculation, of those with spin [s]
      ('a' or 'b'): gebcc.py:138-141; and the number of orbitals of a class, [space.size(k)]. *)
  Variable slices : nat -> nat -> list nat.
  Variable size : nat -> nat.
  Variable nbos : nat.

  (** backend/__init__.py:127-131, [np.put] at the positions of an open mesh. *)
  Definition put_mesh (a : array) (inds : list (list nat)) (b : array) : array :=
    np_put r0 a (map (ravel (shp a)) (product inds)) (dat b).

  (** gebcc.py:191-200 (and 231-244, 275-283, 320-331): the loop over permutations of the first group of indices.  As in
      the code the test is on [comb], not on the permuted pattern.  [a[mask] + b] of different shapes is an error here;
      numpy would stretch extents 1 (only possible where the test picks a wrong permutation). *)
  Definition put_perms (nb n : nat) (comb : pystr) (inds : list (list nat)) (amp acc : array) : result array :=
    foldM (fun (acc : array) (ps : list nat * Z) =>
             let tr := (seq 0 nb ++ map (Nat.add nb) (fst ps) ++ seq (nb + n) n)%list in
             s <- permute_string (firstn n comb) (fst ps) ;;
             if streqb s (firstn n comb)
             then t <- transpose r0 amp tr ;;
                  v <- arr_addM F (take_mesh r0 acc inds) (arr_scale F (sgn F (snd ps)) t) ;;
                  Ok (put_mesh acc inds v)
             else Ok acc)
          (permutations_with_signs (seq 0 n)) acc.

  (** gebcc.py:176-201 (and 212-245, 260-284, 297-332): one spin block [u], for every pair of permutations that gives a
      new spin pattern. *)
  Fixpoint put_block (nb n : nat) (key comb : pystr) (u : array) (pairs : list ((list nat * Z) * (list nat * Z)))
      (done : list pystr) (acc : array) : result array :=
    match pairs with
    | [] => Ok acc
    | (l, p) :: rest =>
        c1 <- permute_string (firstn n comb) (fst l) ;;
        c2 <- permute_string (skipn n comb) (fst p) ;;
        let combn := (c1 ++ c2)%list in
        if existsb (streqb combn) done then put_block nb n key comb u rest done acc
        else
          let inds := (repeat (seq 0 nbos) nb ++ map (fun sk => slices (fst sk) (snd sk)) (combine combn (skipn nb key)))%list in
          t <- transpose r0 u (seq 0 nb ++ map (Nat.add nb) (fst l) ++ map (fun q => q + nb + n) (fst p))%list ;;
          let amp := arr_scale F (sgn F (snd p)) (arr_scale F (sgn F (snd l)) t) in
          acc' <- put_perms nb n comb inds amp acc ;;
          put_block nb n key comb u rest (combn :: done) acc'
    end.

  (** gebcc.py:172-201, 206-245, 254-284, 290-332: one amplitude; [unique] as passed to [generate_spin_combinations]. *)
  Definition general_amp (unique : bool) (nb n : nat) (key : pystr) (blocks : dict pystr array) : result array :=
    foldM (fun acc comb =>
             u <- match dget pystr_eq_dec comb blocks with Some u => Ok u | None => Err AttributeError end ;;
             put_block nb n key comb u (list_prod (permutations_with_signs (seq 0 n)) (permutations_with_signs (seq 0 n))) [] acc)
          (generate_spin_combinations n false unique)
          (full (repeat nbos nb ++ map size (skipn nb key))%list r0).

  Definition as_spin (u : uamp) : result (dict pystr array) := match u with Spin bs => Ok bs | Whole _ => Err AttributeError end.
  Definition as_plain (u : uamp) : result array := match u with Whole a => Ok a | Spin _ => Err AttributeError end.
  (** gebcc.py:170-336.  For multipliers the two groups of the key are exchanged. *)
  Definition from_uebcc (lams : bool) (a : ansatz) (amps : dict pystr uamp) : result (dict pystr array) :=
    fr <- fermionic_cluster_ranks a false Wt ;;
    fs <- mapM (fun e : pystr * pystr * nat =>
                  match e with (name, key, n) =>
                    u <- lookup_amp amps (fname lams name) ;; bs <- as_spin u ;;
                    r <- general_amp true 0 n (if lams then skipn n key ++ firstn n key else key) bs ;; Ok (fname lams name, r)
                  end) fr ;;
    br <- bosonic_cluster_ranks a Wt ;;
    bs <- mapM (fun e : pystr * pystr * nat =>
                  match e with (name, _, _) => u <- lookup_amp amps (bname lams name) ;; r <- as_plain u ;; Ok (bname lams name, r) end) br ;;
    cr <- coupling_cluster_ranks a Wt ;;
    cs <- mapM (fun e : pystr * pystr * nat * nat =>
                  match e with (name, key, nf, nb) =>
                    u <- lookup_amp amps (bname lams name) ;; bs <- as_spin u ;;
                    r <- general_amp lams nb nf (if lams then firstn nb key ++ skipn (nb + nf) key ++ slice nb (nb + nf) key else key) bs ;;
                    Ok (bname lams name, r)
                  end) cr ;;
    Ok (fs ++ bs ++ cs)%list.

  (** gebcc.py:338-352 [GEBCC.from_rebcc] *)
  Definition from_rebcc_general (lams : bool) (a : ansatz) (amps : dict pystr array) : result (dict pystr array) :=
    u <- from_rebcc lams a amps ;; from_uebcc lams a u.
End Convert.
