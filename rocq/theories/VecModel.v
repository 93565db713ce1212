(** Model of the conversion between amplitude namespaces and vectors in the three spin types:
    ebcc/cc/rebcc.py:489-603, ebcc/cc/gebcc.py:731-845 and ebcc/cc/uebcc.py:640-800.
    Arrays are exact; [np.concatenate] of an empty list raises ValueError. *)
From Coq Require Import String.
From Verif Require Import Base Alg ArrModel PermModel TensorModel SpaceModel AnsatzModel.
Set Implicit Arguments.
Local Open Scope nat_scope.
Local Open Scope list_scope.
Local Open Scope py_scope.

(** How one array is stored: as it is, or packed along equal subscripts; with the number of
    entries it takes up in the vector and its shape. *)
Inductive codec := Raw (size : nat) (shape : list nat) | Packed (sub : pystr) (size : nat) (shape : list nat).
Definition csize (c : codec) : nat := match c with Raw n _ => n | Packed _ n _ => n end.
(** One entry of the amplitude namespace: an array, or a namespace over spin strings. *)
Inductive block := BArr (c : codec) | BSpin (cs : list (pystr * codec)).
Inductive tval (A : Type) := VArr (x : arr A) | VSpin (d : dict pystr (arr A)).
Arguments VArr {A}. Arguments VSpin {A}.
Definition layout := list (pystr * block).

(** [tuple(self.space.size(k) for k in key)] *)
Definition key_shape (sp : space) (key : pystr) : result (list nat) := mapM (sp_size sp) key.

(** rebcc.py:523-540, 581-602 (= gebcc.py:765-782, 823-844): names and shapes.  [rspin] says
    whether the class is REBCC; [w] whether amplitudes or lambdas are converted. *)
Definition rg_layout (a : ansatz) (sp : space) (nbos : nat) (rspin : bool) (w : which) : result layout :=
  fs <- fermionic_cluster_ranks a rspin w ;;
  bf <- mapM (fun '(name, key, n) => s <- key_shape sp key ;; Ok (name, BArr (Raw (prodn s) s))) fs ;;
  bs <- bosonic_cluster_ranks a w ;;
  let bb := map (fun '(name, key, n) => (name : pystr, BArr (Raw (prodn (repeat nbos n)) (repeat nbos n)))) bs in
  cs <- coupling_cluster_ranks a w ;;
  bc <- mapM (fun '(name, key, nf, nb) =>
                s <- key_shape sp (skipn nb key) ;;
                Ok (name, BArr (Raw (prodn (repeat nbos nb ++ s)) (repeat nbos nb ++ s)))) cs ;;
  Ok (bf ++ bb ++ bc).

(** ["ab".index(s)] and [self.space[...]] *)
Definition spin_space (sa sb : space) (s : nat) : result space :=
  if s =? chr_of "a" then Ok sa else if s =? chr_of "b" then Ok sb else Err ValueError.
(** uebcc.py:690, 773: [tuple(self.space["ab".index(s)].size(k) for s, k in zip(spin, key))] *)
Definition spin_shape (sa sb : space) (key spin : pystr) : result (list nat) :=
  mapM (fun sk => sp <- spin_space sa sb (fst sk) ;; sp_size sp (snd sk)) (combine spin key).
(** uebcc.py:679-681, 760-762: sizes by (letter, spin). *)
Definition u_sizes (sa sb : space) : result (dict pystr nat) :=
  mapM (fun os => sp <- spin_space sa sb (snd os) ;; n <- sp_size sp (fst os) ;; Ok ([fst os; snd os], n))
       (flat_map (fun o => map (fun s => (o, s)) (str "ab")) (str "ovOVia")).

(** uebcc.py:652-655, 685-694: one fermionic entry. *)
Definition u_packed (sa sb : space) (sizes : dict pystr nat) (key spin : pystr) : result (pystr * codec) :=
  sc <- combine_subscripts [key; spin] sizes ;;
  n <- get_compressed_size (fst sc) (snd sc) ;;
  s <- spin_shape sa sb key spin ;;
  Ok (spin, Packed (fst sc) n s).
(** uebcc.py:677-711, 758-795: the layout in the unrestricted class. *)
Definition u_layout (a : ansatz) (sa sb : space) (nbos : nat) (w : which) : result layout :=
  sizes <- u_sizes sa sb ;;
  fs <- fermionic_cluster_ranks a false w ;;
  bf <- mapM (fun '(name, key, n) =>
                cs <- mapM (u_packed sa sb sizes key) (generate_spin_combinations n false true) ;;
                Ok (name, BSpin cs)) fs ;;
  bs <- bosonic_cluster_ranks a w ;;
  let bb := map (fun '(name, key, n) => (name : pystr, BArr (Raw (nbos ^ n) (repeat nbos n)))) bs in
  cs <- coupling_cluster_ranks a w ;;
  bc <- mapM (fun '(name, key, nf, nb) =>
                if negb (nf =? 1) then Err ModelNotImplemented else
                s0 <- key_shape sa (skipn nb key) ;;
                s1 <- key_shape sb (skipn nb key) ;;
                let ra := Raw (prodn (repeat nbos nb ++ s0)) (repeat nbos nb ++ s0) in
                let rb := Raw (prodn (repeat nbos nb ++ s1)) (repeat nbos nb ++ s1) in
                Ok (name, BSpin [(str "aa", ra); (str "bb", rb)])) cs ;;
  Ok (bf ++ bb ++ bc).

Section Scalars.
  Variable K : rng.

  (** [np.ravel(x)], [np.ravel(util.compress_axes(subscript, x))] *)
  Definition encode (c : codec) (x : arr K) : result (list K) :=
    match c with
    | Raw _ _ => Ok (dat x)
    | Packed sub _ _ => p <- compress_axes r0 sub x false ;; Ok (dat p)
    end.
  (** [np.reshape(v, shape)], [util.decompress_axes(subscript, v, shape=shape)] *)
  Definition decode (c : codec) (v : list K) : result (arr K) :=
    match c with
    | Raw _ shape => reshape (mkarr [length v] v) shape
    | Packed sub _ shape => decompress_axes K sub (mkarr [length v] v) shape false None
    end.

  (** [amplitudes[name]], [amplitudes[name][spin]]; KeyError if missing.  Indexing an array by
      a string and [np.ravel] of a namespace are both refused (IndexError, TypeError). *)
  Definition write_block (amps : dict pystr (tval K)) (nb : pystr * block) : result (list (list K)) :=
    match dget pystr_eq_dec (fst nb) amps, snd nb with
    | None, _ => Err KeyError
    | Some (VArr x), BArr c => v <- encode c x ;; Ok [v]
    | Some (VSpin d), BSpin cs =>
        mapM (fun sc => match dget pystr_eq_dec (fst sc) d with None => Err KeyError | Some x => encode (snd sc) x end) cs
    | Some (VArr _), BSpin _ => Err IndexError
    | Some (VSpin _), BArr _ => Err TypeError
    end.
  (** rebcc.py:489-509, 543-567; gebcc.py:731-751, 785-809; uebcc.py:640-666, 717-747 *)
  Definition to_vector (lay : layout) (amps : dict pystr (tval K)) : result (list K) :=
    vs <- mapM (write_block amps) lay ;;
    match concat vs with [] => Err ValueError | l => Ok (concat l) end.

  (** [x = ...(vector[i0 : i0 + size]); i0 += size] *)
  Definition read_codec (c : codec) (v : list K) (i0 : nat) : result (arr K * nat) :=
    x <- decode c (slice i0 (i0 + csize c) v) ;; Ok (x, i0 + csize c).
  Fixpoint read_spins (cs : list (pystr * codec)) (v : list K) (i0 : nat) (d : dict pystr (arr K))
    : result (dict pystr (arr K) * nat) :=
    match cs with
    | [] => Ok (d, i0)
    | (spin, c) :: cs' => xi <- read_codec c v i0 ;; read_spins cs' v (snd xi) (dset pystr_eq_dec spin (fst xi) d)
    end.
  Definition read_block (b : block) (v : list K) (i0 : nat) : result (tval K * nat) :=
    match b with
    | BArr c => xi <- read_codec c v i0 ;; Ok (VArr (fst xi), snd xi)
    | BSpin cs => di <- read_spins cs v i0 [] ;; Ok (VSpin (fst di), snd di)
    end.
  Fixpoint read_blocks (lay : layout) (v : list K) (i0 : nat) (amps : dict pystr (tval K))
    : result (dict pystr (tval K) * nat) :=
    match lay with
    | [] => Ok (amps, i0)
    | (name, b) :: lay' => ti <- read_block b v i0 ;; read_blocks lay' v (snd ti) (dset pystr_eq_dec name (fst ti) amps)
    end.

  (** rebcc.py:489-509, 543-567 and gebcc.py:731-751, 785-809: [amplitudes_to_vector] and
      [lambdas_to_vector] of the restricted and general classes. *)
  Definition rg_to_vector a sp nbos rspin w (amps : dict pystr (tval K)) : result (list K) :=
    lay <- rg_layout a sp nbos rspin w ;; to_vector lay amps.
  (** rebcc.py:511-541, 569-603 and gebcc.py:753-783, 811-845: [vector_to_amplitudes] and
      [vector_to_lambdas]; a vector with entries left over is accepted. *)
  Definition rg_from_vector a sp nbos rspin w (v : list K) : result (dict pystr (tval K)) :=
    lay <- rg_layout a sp nbos rspin w ;; ri <- read_blocks lay v 0 [] ;; Ok (fst ri).
  (** uebcc.py:640-666, 717-747.  The code does not look up sizes here; the letters of every key
      have one, so the layout is never the reason for an error (lemma u_layout_ok). *)
  Definition u_to_vector a sa sb nbos w (amps : dict pystr (tval K)) : result (list K) :=
    lay <- u_layout a sa sb nbos w ;; to_vector lay amps.
  (** uebcc.py:668-715, 749-800 with the assertion on the length. *)
  Definition u_from_vector a sa sb nbos w (v : list K) : result (dict pystr (tval K)) :=
    lay <- u_layout a sa sb nbos w ;;
    ri <- read_blocks lay v 0 [] ;;
    if snd ri =? length v then Ok (fst ri) else Err AssertionError.
End Scalars.
