(** Property theorems C05-C09 (ebcc/util/permutations.py): packing, unpacking, symmetrising. *)
From Coq Require Import Sorted String.
From Coq Require Qcanon.
From Verif Require Import Base Alg PermSpec PermModel ArrModel TensorModel TensorSpec TensorThms.
Local Open Scope string_scope.
Local Open Scope list_scope.
Local Open Scope nat_scope.

(** C05: packing after unpacking gives back every packed vector; [describes] relates the keyword
    sizes of get_compressed_size to the shape. *)
Theorem C05_pack_unpack : forall (K : rng) (sub : pystr) (shape : list nat) (sizes : dict nat nat) (v : arr K),
  extents_ok sub shape -> describes sub shape sizes ->
  get_compressed_size sub sizes = Ok (length (dat v)) ->
  exists x c, decompress_axes K sub v shape false None = Ok x /\
              compress_axes r0 sub x false = Ok c /\ dat c = dat v.
Proof. exact pack_unpack. Qed.
Print Assumptions C05_pack_unpack.

(** ... also with a symmetry string, when equal subscripts are adjacent. *)
Theorem C05_pack_unpack_symmetry : forall (K : rng) (sub symm : pystr) (shape : list nat) (sizes : dict nat nat) (v : arr K),
  extents_ok sub shape -> describes sub shape sizes -> blocked sub -> symmetry_string sub symm ->
  get_compressed_size sub sizes = Ok (length (dat v)) ->
  exists x c, decompress_axes K sub v shape false (Some symm) = Ok x /\
              compress_axes r0 sub x false = Ok c /\ dat c = dat v.
Proof. exact pack_unpack_symmetry. Qed.
Print Assumptions C05_pack_unpack_symmetry.

(** ... and with the diagonal included when every axis is symmetric ('+'). *)
Theorem C05_pack_unpack_diagonal : forall (K : rng) (sub : pystr) (shape : list nat) (v like packed : arr K),
  extents_ok sub shape -> shp like = shape -> compress_axes r0 sub like true = Ok packed ->
  length (dat v) = length (dat packed) ->
  exists x c, decompress_axes K sub v shape true (Some (repeat 43 (length sub))) = Ok x /\
              compress_axes r0 sub x true = Ok c /\ dat c = dat v.
Proof. exact pack_unpack_diagonal. Qed.
Print Assumptions C05_pack_unpack_diagonal.

Example C05_example : extents_ok (str "iaia") [3; 2; 3; 2] /\
  describes (str "iaia") [3; 2; 3; 2] [(105, 3); (97, 2)] /\
  get_compressed_size (str "iaia") [(105, 3); (97, 2)] = Ok 3 /\
  exists x, decompress_axes Z_rng (str "iaia") (mkarr [3] [5; 7; 9]%Z) [3; 2; 3; 2] false None = Ok x /\
    aget (A := Z) 0%Z x [2; 1; 0; 0] = 7%Z /\ aget (A := Z) 0%Z x [0; 1; 2; 0] = (-7)%Z.
Proof.
  split; [split; [reflexivity|]; intros [|[|[|[|i]]]] [|[|[|[|j]]]] Hi Hj E; cbn in *; try lia; try discriminate; reflexivity|].
  split; [intros [|[|[|[|i]]]] Hi; cbn in *; try lia; reflexivity|]. split; [reflexivity|].
  eexists. split; [vm_compute; reflexivity|]. split; reflexivity.
Qed.

(** C06: the unpacked array is antisymmetric, respectively has the symmetry named by the string. *)
Theorem C06_unpacked_antisymmetric : forall (K : rng) (sub : pystr) (shape : list nat) (sizes : dict nat nat) (v x : arr K),
  extents_ok sub shape -> describes sub shape sizes ->
  get_compressed_size sub sizes = Ok (length (dat v)) ->
  decompress_axes K sub v shape false None = Ok x ->
  shp x = shape /\ antisymmetric sub x.
Proof. exact unpacked_antisymmetric. Qed.
Print Assumptions C06_unpacked_antisymmetric.

Theorem C06_unpacked_symmetry : forall (K : rng) (sub symm : pystr) (shape : list nat) (sizes : dict nat nat) (v x : arr K),
  extents_ok sub shape -> describes sub shape sizes -> blocked sub -> symmetry_string sub symm ->
  get_compressed_size sub sizes = Ok (length (dat v)) ->
  decompress_axes K sub v shape false (Some symm) = Ok x ->
  shp x = shape /\ symmetric_as (fun i => nth i symm 0 =? 45) sub x.
Proof. exact unpacked_symmetry. Qed.
Print Assumptions C06_unpacked_symmetry.

(** Unpacking recovers every antisymmetric array from its packed form; with a symmetry string the
    entries with repeated '+' indices, which are not stored, must be zero. *)
Theorem C06_unpack_pack : forall (K : rng) (sub : pystr) (x : arr K),
  no_two_torsion K -> wf x -> extents_ok sub (shp x) -> antisymmetric sub x ->
  exists c, compress_axes r0 sub x false = Ok c /\ decompress_axes K sub c (shp x) false None = Ok x.
Proof. exact unpack_pack. Qed.
Print Assumptions C06_unpack_pack.

Theorem C06_unpack_pack_symmetry : forall (K : rng) (sub symm : pystr) (x : arr K),
  no_two_torsion K -> wf x -> extents_ok sub (shp x) -> blocked sub -> symmetry_string sub symm ->
  symmetric_as (fun i => nth i symm 0 =? 45) sub x ->
  (forall idx i j, inb (shp x) idx -> i < length sub -> j < length sub -> i <> j -> nth i sub 0 = nth j sub 0 ->
     nth i symm 0 = 43 -> nth i idx 0 = nth j idx 0 -> aget r0 x idx = r0) ->
  exists c, compress_axes r0 sub x false = Ok c /\ decompress_axes K sub c (shp x) false (Some symm) = Ok x.
Proof. exact unpack_pack_symmetry. Qed.
Print Assumptions C06_unpack_pack_symmetry.

(** With the diagonal included every symmetric array is recovered. *)
Theorem C06_unpack_pack_diagonal : forall (K : rng) (sub : pystr) (x : arr K),
  wf x -> extents_ok sub (shp x) -> totally_symmetric sub x ->
  exists c, compress_axes r0 sub x true = Ok c /\
            decompress_axes K sub c (shp x) true (Some (repeat 43 (length sub))) = Ok x.
Proof. exact unpack_pack_diagonal. Qed.
Print Assumptions C06_unpack_pack_diagonal.

Example C06_example : no_two_torsion Z_rng /\ blocked (str "iiaa") /\ symmetry_string (str "iiaa") (str "--++") /\
  antisymmetric (K := Z_rng) (str "ii") (mkarr [2; 2] [0; 3; -3; 0]%Z).
Proof.
  split; [intros a H; cbn in *; lia|]. split; [|split].
  - intros i j k Hij Hjk Hk E. destruct i as [|[|[|[|i]]]], j as [|[|[|[|j]]]], k as [|[|[|[|k]]]]; cbn in *; try lia; try discriminate.
  - split; [reflexivity|]. split; [cbn; intuition lia|].
    intros [|[|[|[|i]]]] [|[|[|[|j]]]] Hi Hj E; cbn in *; try lia; try discriminate; reflexivity.
  - intros idx i j Hidx Hi Hj Hij E. cbn in Hidx. inversion Hidx as [|a n l l2 Ha H1]; subst. inversion H1 as [|b m l' l3 Hb H2]; subst. inversion H2; subst.
    destruct i as [|[|i]], j as [|[|j]]; cbn in Hi, Hj; try lia; destruct a as [|[|a]], b as [|[|b]]; try lia; reflexivity.
Qed.

(** The symmetry string is read in grouped order: a valid string for interleaved subscripts is rejected. *)
Theorem C06_interleaved_symmetry_refuted : exists (sub symm : pystr) (shape : list nat) (v : arr Z_rng),
  extents_ok sub shape /\ symmetry_string sub symm /\
  get_compressed_size sub [(105, 2); (106, 2)] = Ok (length (dat v)) /\
  decompress_axes Z_rng sub v shape false (Some symm) = Err AssertionError.
Proof. exact interleaved_refuted. Qed.
Print Assumptions C06_interleaved_symmetry_refuted.

(** Including the diagonal with the default '-' symmetry gives an array that is not antisymmetric. *)
Theorem C06_diagonal_minus_refuted : exists (sub : pystr) (shape : list nat) (v x : arr Z_rng),
  extents_ok sub shape /\ decompress_axes Z_rng sub v shape true None = Ok x /\ ~ antisymmetric sub x.
Proof. exact diagonal_minus_refuted. Qed.
Print Assumptions C06_diagonal_minus_refuted.

(** C07: the advertised size is the size of the packed array, for every array of those extents. *)
Theorem C07_compressed_size : forall (K : rng) (sub : pystr) (sizes : dict nat nat) (x : arr K),
  extents_ok sub (shp x) -> describes sub (shp x) sizes ->
  exists c, compress_axes r0 sub x false = Ok c /\ get_compressed_size sub sizes = Ok (length (dat c)) /\
            length (dat c) = prodn (shp c).
Proof. exact size_of_packed. Qed.
Print Assumptions C07_compressed_size.

(** The packed array has one entry per index tuple decreasing along equal subscripts. *)
Theorem C07_packed_entries : forall (K : rng) (sub : pystr) (x c : arr K) (diag : bool),
  extents_ok sub (shp x) -> compress_axes r0 sub x diag = Ok c ->
  exists idxs, length idxs = length (dat c) /\ NoDup idxs /\
    (forall idx, In idx idxs <-> inb (shp x) idx /\ canonical diag sub idx) /\
    dat c = map (aget r0 x) idxs.
Proof. exact packed_entries. Qed.
Print Assumptions C07_packed_entries.

Example C07_example : get_compressed_size (str "iiiaaa") [(105, 4); (97, 5)] = Ok 40.
Proof. reflexivity. Qed.

(** C08: the symmetrised array is antisymmetric, with and without the factor. *)
Theorem C08_symmetrised_antisymmetric : forall (K : rng) (factor : option (nat -> K)) (sub : pystr) (x : arr K),
  sub <> [] -> wf x -> extents_ok sub (shp x) ->
  exists r, symmetrise K factor sub x None = Ok r /\ shp r = shp x /\ wf r /\ antisymmetric sub r.
Proof. exact symmetrised_antisymmetric. Qed.
Print Assumptions C08_symmetrised_antisymmetric.

(** Exact effect on an antisymmetric array: multiplication by (prod n_c!) / 2^(sum (n_c - 1)),
    the product and sum over the distinct subscripts. *)
Theorem C08_symmetrise_scaling : forall (F : fld) (sub : pystr) (x : arr F),
  sub <> [] -> wf x -> extents_ok sub (shp x) -> antisymmetric sub x ->
  symmetrise F (Some half_pow) sub x None =
    Ok (mkarr (shp x) (map (fun v => rmul v (fdiv (rnat (stabiliser_size sub))
          (rpow (radd r1 r1) (fold_right Nat.add 0 (map pred (multiplicities sub)))))) (dat x))).
Proof. exact symmetrise_scaling. Qed.
Print Assumptions C08_symmetrise_scaling.

(** A projection when no subscript occurs more than twice ... *)
Theorem C08_projection_pairs_partial : forall (F : fld) (sub : pystr) (x : arr F),
  radd r1 r1 <> @r0 F -> sub <> [] -> wf x -> extents_ok sub (shp x) -> (forall n, In n (multiplicities sub) -> n <= 2) ->
  (antisymmetric sub x -> symmetrise F (Some half_pow) sub x None = Ok x) /\
  (exists r, symmetrise F (Some half_pow) sub x None = Ok r /\ symmetrise F (Some half_pow) sub r None = Ok r).
Proof. exact projection_pairs. Qed.
Print Assumptions C08_projection_pairs_partial.

(** ... and not one otherwise: three equal subscripts multiply an antisymmetric array by 3/2. *)
Theorem C08_projection_refuted : exists (sub : pystr) (x r : arr Qc_fld),
  wf x /\ extents_ok sub (shp x) /\ antisymmetric sub x /\
  symmetrise Qc_fld (Some half_pow) sub x None = Ok r /\ r <> x.
Proof. exact projection_refuted. Qed.
Print Assumptions C08_projection_refuted.

Example C08_example : (forall n, In n (multiplicities (str "iajb")) -> n <= 2) /\ (forall n, In n (multiplicities (str "iiaa")) -> n <= 2)
  /\ stabiliser_size (str "iiaa") = 4 /\ stabiliser_size (str "iiiaaa") = 36.
Proof. repeat split; try reflexivity; intros n H; vm_compute in H; intuition lia. Qed.

(** C09: with a '+' string every group comes out symmetric. *)
Theorem C09_symmetrise_plus : forall (K : rng) (factor : option (nat -> K)) (sub : pystr) (x : arr K),
  sub <> [] -> wf x -> extents_ok sub (shp x) ->
  exists r, symmetrise K factor sub x (Some (repeat 43 (length sub))) = Ok r /\ shp r = shp x /\ totally_symmetric sub r.
Proof. exact symmetrise_plus. Qed.
Print Assumptions C09_symmetrise_plus.

(** With a mixed string the symmetry of the group of the first axis is imposed on all groups ... *)
Theorem C09_first_axis_decides_partial : forall (K : rng) (factor : option (nat -> K)) (sub symm : pystr) (x : arr K),
  sub <> [] -> wf x -> extents_ok sub (shp x) -> blocked sub -> symmetry_string sub symm ->
  exists r, symmetrise K factor sub x (Some symm) = Ok r /\ shp r = shp x /\
            symmetric_as (fun _ => nth 0 symm 0 =? 45) sub r.
Proof. exact first_axis_decides. Qed.
Print Assumptions C09_first_axis_decides_partial.

(** ... so the requested symmetry is not delivered. *)
Theorem C09_mixed_refuted : exists (sub symm : pystr) (x r : arr Z_rng),
  wf x /\ extents_ok sub (shp x) /\ blocked sub /\ symmetry_string sub symm /\
  symmetrise Z_rng None sub x (Some symm) = Ok r /\ ~ symmetric_as (fun i => nth i symm 0 =? 45) sub r.
Proof. exact mixed_refuted. Qed.
Print Assumptions C09_mixed_refuted.
