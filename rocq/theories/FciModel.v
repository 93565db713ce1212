(** Model of ebcc/ext/fci.py: reading coefficient amplitudes off a CI vector and packing them into one.  The table of string addresses and
    signs comes from PySCF ([tn_addrs_signs]) and is a parameter, as are the generated conversions between cluster and coefficient amplitudes
    and the norm.  Integer index arrays with one spin only are treated as open meshes with a single row or column 0, which selects the same
    entries in the same order. *)
From Coq Require Import String ZArith.
From Verif Require Import Base Alg ArrModel PermModel TensorModel SpaceModel AnsatzModel VecModel CcModel ExtModel.
Set Implicit Arguments.
Local Open Scope nat_scope.
Local Open Scope list_scope.
Local Open Scope py_scope.

(** fci.py:120-121, 379-380, 505-506: numbers of alpha and beta spins. *)
Definition nalph (spins : pystr) : nat := count spins (chr_of "a").
Definition nbeta (spins : pystr) : nat := count spins (chr_of "b").
(** fci.py:148, 408, 528 *)
Definition fci_subscript (na nb : nat) : pystr :=
  repeat (chr_of "i") na ++ repeat (chr_of "a") na ++ repeat (chr_of "j") nb ++ repeat (chr_of "b") nb.
(** fci.py:152-156, 412-416, 529-533 *)
Definition fci_target (spins : pystr) : pystr := map (fun s => if s =? chr_of "a" then chr_of "i" else chr_of "j") spins ++ spins.
(** fci.py:145-147 (restricted) and 402-407 (unrestricted): the letters of the uncompressed axes. *)
Definition axis_letters (na nb : nat) : pystr :=
  repeat (chr_of "O") na ++ repeat (chr_of "V") na ++ repeat (chr_of "O") nb ++ repeat (chr_of "V") nb.
Definition r_fci_shape (sp : space) (spins : pystr) : result (list nat) := mapM (sp_size sp) (axis_letters (nalph spins) (nbeta spins)).
(** [s[::2]] and [s[1::2]] *)
Fixpoint evens (l : pystr) : pystr := match l with [] => [] | x :: l' => x :: odds l' end
with odds (l : pystr) : pystr := match l with [] => [] | _ :: l' => evens l' end.
(** fci.py:402-407 *)
Definition spins_full (spins : pystr) : pystr := let s := spins ++ spins in evens s ++ odds s.
Definition u_fci_shape (sa sb : space) (spins : pystr) : result (list nat) :=
  mapM (fun cs => sp <- spin_space sa sb (snd cs) ;; sp_size sp (fst cs)) (combine (axis_letters (nalph spins) (nbeta spins)) (spins_full spins)).

Section Fci.
  Variable F : fld.
  (** [pyscf.ci.cisd.tn_addrs_signs(norb, nocc, order)] (fci.py:30-43). *)
  Variable tn : nat -> nat -> nat -> list nat * list Z.

  (** fci.py:123-139, 382-396, 508-525: addresses and signs of one spin channel; the single index 0 with sign 1 without excitations. *)
  Definition side (norb nocc n : nat) : list nat * list Z := match n with 0 => ([0], [1%Z]) | _ => tn norb nocc n end.
  Definition mesh (ra rb : list nat * list Z) : list (list nat) := [fst ra; fst rb].
  Definition mesh_signs (ra rb : list nat * list Z) : list F :=
    map (fun p => rmul (sgn F (nth 0 p 1%Z)) (sgn F (nth 1 p 1%Z))) (product [snd ra; snd rb]).
  (** [array * signs] for equal extents; other extents do not broadcast here. *)
  Definition times (x s : list F) : result (list F) :=
    if length x =? length s then Ok (map (fun p => rmul (fst p) (snd p)) (combine x s)) else Err BroadcastError.

  (** fci.py:117-162, 376-423 [_get_c]: gather, unpack, transpose, divide by the weight of the reference. *)
  Definition get_c (ra rb : list nat * list Z) (shape : result (list nat)) (ci : arr F) (spins : pystr) : result (arr F) :=
    let sub := fci_subscript (nalph spins) (nbeta spins) in
    x <- get_ix r0 ci (mesh ra rb) ;;
    v <- times (dat x) (mesh_signs ra rb) ;;
    s <- shape ;;
    cn <- decompress_axes F sub (mkarr (shp x) v) s false None ;;
    perm <- get_string_permutation sub (fci_target spins) ;;
    t <- transpose r0 cn perm ;;
    Ok (map_arr (fun z => fdiv z (aget r0 ci [0; 0])) t).

  (** fci.py:94-174 [_ci_vector_to_coefficients_restricted].  Without any order the first lookup of addresses fails. *)
  Definition r_get_c (sp : space) (ci : arr F) (spins : pystr) : result (arr F) :=
    get_c (side (nact sp) (naocc sp) (nalph spins)) (side (nact sp) (naocc sp) (nbeta spins)) (r_fci_shape sp spins) ci spins.
  Definition r_requests : list (nat * pystr * pystr) :=
    [(1, str "c1", str "b"); (2, str "c2", str "ab"); (3, str "c3", str "aba"); (4, str "c4", str "abab"); (4, str "c4a", str "abaa")].
  Definition r_coefficients (sp : space) (ci : arr F) (max_order : nat) : result (dict pystr (tval F)) :=
    if 4 <? max_order then Err NotImplementedError else
    if max_order =? 0 then Err KeyError else
    foldM (fun d q => let '(_, name, spins) := q in c <- r_get_c sp ci spins ;; Ok (dset pystr_eq_dec name (VArr c) d))
          (filter (fun q => fst (fst q) <=? max_order) r_requests) [].

  (** fci.py:349-440 [_ci_vector_to_coefficients_unrestricted]. *)
  Definition u_get_c (sa sb : space) (ci : arr F) (spins : pystr) : result (arr F) :=
    get_c (side (nact sa) (naocc sa) (nalph spins)) (side (nact sb) (naocc sb) (nbeta spins)) (u_fci_shape sa sb spins) ci spins.
  (** [f"c{order}"] *)
  Definition order_name (n : nat) : pystr := str "c" ++ dec n.
  Definition u_order (sa sb : space) (ci : arr F) (n : nat) : result (tval F) :=
    d <- foldM (fun d comb => c <- u_get_c sa sb ci (firstn n comb) ;; Ok (dset pystr_eq_dec comb c d)) (generate_spin_combinations n false true) [] ;;
    Ok (VSpin d).
  Definition u_coefficients (sa sb : space) (ci : arr F) (max_order : nat) : result (dict pystr (tval F)) :=
    if 4 <? max_order then Err NotImplementedError else
    if max_order =? 0 then Err KeyError else
    set_all (F := F) order_name (u_order sa sb ci) (seq 1 max_order) [].

  (** fci.py:497-559 [_pack_vector]: transpose, compress, apply the signs. *)
  Definition pack_c (oa va ob vb : nat) (ra rb : list nat * list Z) (spins : pystr) (cn : arr F) : result (arr F) :=
    let na := nalph spins in let nb := nbeta spins in
    let sub := fci_subscript na nb in
    perm <- get_string_permutation sub (fci_target spins) ;;
    t <- transpose r0 cn (argsort perm) ;;
    c <- compress_axes r0 sub t false ;;
    la <- get_compressed_size (filter (fun k => memb k (str "ia")) sub) [(chr_of "i", oa); (chr_of "a", va)] ;;
    lb <- get_compressed_size (filter (fun k => memb k (str "jb")) sub) [(chr_of "j", ob); (chr_of "b", vb)] ;;
    c2 <- reshape c [la; lb] ;;
    if (la =? length (snd ra)) && (lb =? length (snd rb))
    then v <- times (dat c2) (mesh_signs ra rb) ;; Ok (mkarr [la; lb] v)
    else Err BroadcastError.

  (** fci.py:466-603 [_amplitudes_to_ci_vector_unrestricted]: [conv] is the generated conversion of cluster to coefficient amplitudes
      (lines 324-346, 562), [norm] the Euclidean norm. *)
  Definition t1_shape (amps : dict pystr (tval F)) (spin : pystr) : result (nat * nat) :=
    t <- lookup (str "t1") amps ;; d <- as_spin t ;; x <- lookup spin d ;;
    match shp x with [o; v] => Ok (o, v) | _ => Err ValueError end.
  Definition pack_block (oa va ob vb : nat) (camps : dict pystr (tval F)) (nc : nat * pystr) : result (list (list nat) * arr F) :=
    let (n, comb) := nc in
    let spins := firstn n comb in
    t <- lookup (order_name n) camps ;; d <- as_spin t ;; cn <- lookup comb d ;;
    let ra := side (oa + va) oa (nalph spins) in
    let rb := side (ob + vb) ob (nbeta spins) in
    v <- pack_c oa va ob vb ra rb spins cn ;; Ok (mesh ra rb, v).
  Definition blocks_of (max_order : nat) : list (nat * pystr) :=
    flat_map (fun n => map (fun comb => (n, comb)) (generate_spin_combinations n false true)) (seq 1 max_order).
  Definition largest (k : nat) (blocks : list (list (list nat) * arr F)) : nat := list_max (flat_map (fun b => nth k (fst b) []) blocks).
  Definition u_to_ci (conv : dict pystr (tval F) -> result (dict pystr (tval F))) (norm : arr F -> F)
      (amps : dict pystr (tval F)) (max_order : nat) (normalise : bool) : result (arr F) :=
    if 4 <? max_order then Err NotImplementedError else
    a <- t1_shape amps (str "aa") ;; b <- t1_shape amps (str "bb") ;;
    camps <- conv amps ;;
    blocks <- mapM (pack_block (fst a) (snd a) (fst b) (snd b) camps) (blocks_of max_order) ;;
    match blocks with
    | [] => Err ValueError
    | _ =>
        ci <- foldM (fun ci b => put_ix r0 ci (fst b) (snd b)) blocks (zeros [largest 0 blocks + 1; largest 1 blocks + 1]) ;;
        ci <- put_ix r0 ci [[0]; [0]] (mkarr [1; 1] [r1]) ;;
        Ok (if normalise then map_arr (fun z => fdiv z (norm ci)) ci else ci)
    end.
End Fci.
