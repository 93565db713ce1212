(** Model of ebcc/ham: Fock matrices, electron-boson couplings and two-electron integrals with their caches.
    An access is a function from the state of the container to the new state and the result, so that the
    effects of accesses that end in an exception are kept.  The returned arrays are values: a caller that
    writes into a returned array (which the container still holds) is not modelled.  The integral
    transformations of PySCF are modelled by their defining sums.  Precision and backends are not modelled. *)
From Coq Require Import String.
From Verif Require Import Base Alg ArrModel TensorModel EinsumModel SpaceModel CcModel.
Set Implicit Arguments.
Local Open Scope string_scope.
Local Open Scope list_scope.
Local Open Scope nat_scope.

Definition ch_p := 112.
Definition ch_b := 98.
Definition ch_Q := 81.

(** [d[key]] of a plain list, with Python's error. *)
Definition item {A} (l : list A) (i : nat) : result A :=
  match nth_error l i with Some x => Ok x | None => Err IndexError end.

(** The positions along an axis of length [n] that a slice keeps. *)
Definition axis_positions (n : nat) (sl : Z * Z) : list nat := pyslice sl (seq 0 n).
(** Orthogonal indexing: element [idx] of the result is the element at the chosen positions. *)
Definition gather {A} (d : A) (a : arr A) (ixs : list (list nat)) : arr A :=
  tab (map (@List.length nat) ixs) (fun idx => aget d a (map (fun p => nth (fst p) (snd p) 0) (combine idx ixs))).
(** [a[slices]] with basic slices only: missing trailing slices keep the axis, too many are an error. *)
Definition index_slices {A} (d : A) (a : arr A) (sls : list (option (Z * Z))) : result (arr A) :=
  if length (shp a) <? length sls then Err IndexError else
  Ok (gather d a (map (fun p => match snd p with None => seq 0 (fst p) | Some sl => axis_positions (fst p) sl end)
                      (combine (shp a) (sls ++ repeat None (length (shp a) - length sls))))).
(** [a[i]] on the leading axis. *)
Definition index_first {A} (a : arr A) (i : nat) : result (arr A) :=
  match shp a with
  | [] => Err IndexError
  | n :: s => if i <? n then Ok (mkarr s (slice (i * prodn s) (S i * prodn s) (dat a))) else Err IndexError
  end.

(** "key not in self._members: compute and store; return self._members[key]". *)
Definition memo {V} (key : pystr) (compute : result V) (m : dict pystr V) : dict pystr V * result V :=
  match dget pystr_eq_dec key m with
  | Some v => (m, Ok v)
  | None => match compute with Ok v => (dset pystr_eq_dec key v m, Ok v) | Err e => (m, Err e) end
  end.

(** base.py:94-105 [_get_slices]: the zip stops at the shorter of the spaces and the key. *)
Definition get_slices (spaces : list space) (key : pystr) : result (list (Z * Z)) :=
  mapM (fun p => sp_slice (fst p) (snd p)) (combine spaces key).

Section Ham.
  Variable F : fld.
  Local Open Scope rng_scope.
  Local Open Scope py_scope.

  Definition members := dict pystr (arr F).
  Definition eye (n : nat) : arr F := tab [n; n] (fun ix => if (nth 0 ix 0 =? nth 1 ix 0)%nat then r1 else r0).

  (** base.py:107-124 [_get_coeffs]: "p" stands for the atomic orbitals. *)
  Definition get_coeff (spaces : list space) (coeffs : list (arr F)) (offset : nat) (p : nat * nat) : result (arr F) :=
    let (i, k) := p in
    c <- item coeffs (i + offset) ;;
    if (k =? ch_p)%nat then Ok (eye (nth 0 (shp c) 0%nat)) else
    s <- item spaces (i + offset) ;;
    sl <- sp_slice s k ;;
    index_slices r0 c [None; Some sl].
  Definition get_coeffs (spaces : list space) (coeffs : list (arr F)) (key : pystr) (offset : nat) : result (list (arr F)) :=
    mapM (get_coeff spaces coeffs offset) (combine (seq 0 (length key)) key).

  (** * Electron-boson coupling *)
  Record elbos := mkelbos { eb_g : arr F; eb_spaces : list space }.
  (** elbos.py:22-45 [RElectronBoson.__getitem__] and 76-99 [GElectronBoson.__getitem__] (same text) *)
  Definition elbos_block (e : elbos) (key : pystr) : result (arr F) :=
    c <- item key 0%nat ;;
    if negb (c =? ch_b)%nat then Err AssertionError else
    if memb ch_p key then Err NotImplementedError else
    sls <- get_slices (eb_spaces e) (skipn 1 key) ;;
    index_slices r0 (eb_g e) (None :: map Some sls).
  Definition elbos_get (e : elbos) (key : pystr) (m : members) : members * result (arr F) := memo key (elbos_block e key) m.
  (** misc.py:82-89 [Namespace.__getattr__] on top of it; the attribute names of the object are not space keys. *)
  Definition key_to_attr {A} (r : result A) : result A := match r with Err KeyError => Err AttributeError | _ => r end.

  (** * Fock matrix *)
  Record fock := mkfock {
    fk_ao : arr F;              (* mf.get_fock(), the right spin component *)
    fk_spaces : list space; fk_coeffs : list (arr F);
    fk_g : option elbos; fk_shift : bool; fk_xi : option (arr F) }.
  (** State: the blocks of the Fock container and those of the coupling container it refers to. *)
  Definition fstate := (members * members)%type.

  (** fock.py:39-45: the transformed block *)
  Definition fock_block (f : fock) (key : pystr) : result (arr F) :=
    cs <- get_coeffs (fk_spaces f) (fk_coeffs f) key 0 ;;
    np_einsum F [str "pq"; str "pi"; str "qj"] (str "ij") (fk_ao f :: cs).

  (** fock.py:50-55: the shift of a block that is already stored *)
  Definition fock_shift (f : fock) (key : pystr) (st : fstate) (block : arr F) : fstate * result (arr F) :=
    let (fm, gm) := st in
    match fk_g f with
    | None => (st, Err AttributeError)
    | Some e =>
        let (gm1, r1') := elbos_get e (ch_b :: key) gm in
        match key_to_attr r1' with
        | Err x => ((fm, gm1), Err x)
        | Ok g1 =>
            let (gm2, r2') := elbos_get e (ch_b :: rev key) gm1 in
            let st2 := (fm, gm2) in
            match key_to_attr r2' with
            | Err x => (st2, Err x)
            | Ok g2 =>
                match (g2t <- transpose r0 g2 [0; 2; 1]%nat ;;
                       g <- plus_arr g1 g2t ;;
                       xi <- match fk_xi f with Some x => Ok x | None => Err TypeError end ;;
                       d <- np_einsum F [str "I"; str "Ipq"] (str "pq") [xi; g] ;;
                       minus_arr block d) with
                | Ok b => ((dset pystr_eq_dec key b fm, gm2), Ok b)
                | Err x => (st2, Err x)
                end
            end
        end
    end.

  (** fock.py:28-57 [RFock.__getitem__] (also [GFock]): the block is stored before it is shifted. *)
  Definition fock_get (f : fock) (key : pystr) (st : fstate) : fstate * result (arr F) :=
    let (fm, gm) := st in
    match dget pystr_eq_dec key fm with
    | Some v => (st, Ok v)
    | None =>
        match fock_block f key with
        | Err e => (st, Err e)
        | Ok block =>
            let st1 := (dset pystr_eq_dec key block fm, gm) in
            if fk_shift f then fock_shift f key st1 block else (st1, Ok block)
        end
    end.

  (** What a user can do to the pair of containers: read a Fock block or a coupling block. *)
  Inductive access := ReadF (key : pystr) | ReadG (key : pystr).
  Definition access_step (f : fock) (st : fstate) (a : access) : fstate :=
    match a with
    | ReadF k => fst (fock_get f k st)
    | ReadG k => match fk_g f with None => st | Some e => (fst st, fst (elbos_get e k (snd st))) end
    end.
  Definition access_run (f : fock) (h : list access) : fstate := fold_left (access_step f) h ([], []).
  (** Reading a block of a container after a history of accesses. *)
  Definition fock_after (f : fock) (h : list access) (key : pystr) : result (arr F) := snd (fock_get f key (access_run f h)).
  Definition g_after (f : fock) (e : elbos) (h : list access) (key : pystr) : result (arr F) := snd (elbos_get e key (snd (access_run f h))).

  (** * Unrestricted containers *)
  Definition spin_index (c : nat) : result nat := match index_of c (str "ab") with Some i => Ok i | None => Err ValueError end.
  Definition pick {A} (p : A * A) (i : nat) : A := if (i =? 0)%nat then fst p else snd p.

  Record ufock := mkufock {
    uf_ao : arr F * arr F; uf_space : space * space; uf_coeff : arr F * arr F;
    uf_g : option (arr F);      (* the bare coupling, shared or with a leading spin axis *)
    uf_shift : bool; uf_xi : option (arr F) }.
  (** elbos.py:51-70 [UElectronBoson.__getitem__]: the restricted container of one spin *)
  Definition u_elbos (u : ufock) (i : nat) : result (option elbos) :=
    match uf_g u with
    | None => Ok None
    | Some g =>
        gi <- (if (length (shp g) =? 4)%nat then index_first g i else Ok g) ;;
        Ok (Some (mkelbos gi [pick (uf_space u) i; pick (uf_space u) i]))
    end.
  (** fock.py:63-88 [UFock.__getitem__]: the restricted container of one spin.
      Both arguments of each pair are the same object (cc/base.py:931-938). *)
  Definition u_part (u : ufock) (spin : pystr) : result fock :=
    if negb (streqb spin (str "aa") || streqb spin (str "bb")) then Err KeyError else
    c <- item spin 0%nat ;; i <- spin_index c ;;
    g <- u_elbos u i ;;
    Ok (mkfock (pick (uf_ao u) i) [pick (uf_space u) i; pick (uf_space u) i] [pick (uf_coeff u) i; pick (uf_coeff u) i]
               g (uf_shift u) (uf_xi u)).
  (** State: one restricted pair of containers per spin that has been used. *)
  Definition ustate := dict pystr fstate.
  Definition u_sub (spin : pystr) (st : ustate) : fstate := match dget pystr_eq_dec spin st with Some s => s | None => ([], []) end.
  Definition u_fock_get (u : ufock) (spin key : pystr) (st : ustate) : ustate * result (arr F) :=
    match u_part u spin with
    | Err e => (st, Err e)
    | Ok f => let (s', r) := fock_get f key (u_sub spin st) in (dset pystr_eq_dec spin s' st, r)
    end.
  (** One access to a spin component of the Fock container or of the coupling container. *)
  Definition u_step (u : ufock) (st : ustate) (p : pystr * access) : ustate :=
    let (spin, a) := p in
    match u_part u spin with
    | Err e => st
    | Ok f => dset pystr_eq_dec spin (access_step f (u_sub spin st) a) st
    end.
  Definition u_run (u : ufock) (h : list (pystr * access)) : ustate := fold_left (u_step u) h [].
  Definition u_fock_after (u : ufock) (h : list (pystr * access)) (spin key : pystr) : result (arr F) :=
    snd (u_fock_get u spin key (u_run u h)).

  (** * Two-electron integrals *)
  (** PySCF's [ao2mo]: the four-index transformation as its defining sum (trusted). *)
  Definition ao2mo (eri : arr F) (cs : list (arr F)) : result (arr F) :=
    np_einsum F [str "pqrs"; str "pi"; str "qj"; str "rk"; str "sl"] (str "ijkl") (eri :: cs).

  Record reris := mkreris { er_ao : arr F; er_spaces : list space; er_coeffs : list (arr F) }.
  (** eris.py:26-51 [RERIs.__getitem__] *)
  Definition reris_block (e : reris) (key : pystr) : result (arr F) :=
    cs <- get_coeffs (er_spaces e) (er_coeffs e) key 0 ;; ao2mo (er_ao e) cs.
  Definition reris_get (e : reris) (key : pystr) (m : members) : members * result (arr F) := memo key (reris_block e key) m.
  Definition reris_after (e : reris) (h : list pystr) (key : pystr) : result (arr F) :=
    snd (reris_get e key (fold_left (fun m k => fst (reris_get e k m)) h [])).

  (** eris.py:54-85 [UERIs.__getitem__]: bra and ket spins *)
  Record ueris := mkueris { ue_ao : arr F; ue_space : space * space; ue_coeff : arr F * arr F }.
  Definition eri_spins := [str "aaaa"; str "aabb"; str "bbaa"; str "bbbb"].
  Definition ueris_part (u : ueris) (spins : pystr) : result reris :=
    if negb (existsb (streqb spins) eri_spins) then Err KeyError else
    c <- item spins 0%nat ;; i <- spin_index c ;;
    c' <- item spins 2%nat ;; j <- spin_index c' ;;
    let s k := pick (ue_space u) k in let m k := pick (ue_coeff u) k in
    Ok (mkreris (ue_ao u) [s i; s i; s j; s j] [m i; m i; m j; m j]).
  Definition ueris_block (u : ueris) (spins key : pystr) : result (arr F) := e <- ueris_part u spins ;; reris_block e key.

  (** eris.py:94-130 [GERIs.__init__]: the alpha rows of the coefficients come first. [ao2mo] and [restore]
      are taken together as the full transformation. *)
  Record geris := mkgeris { ge_ao : arr F; ge_nao : nat; ge_space : space; ge_coeff : arr F }.
  Definition geris_array (g : geris) : result (arr F) :=
    let c := ge_coeff g in let n := Z.of_nat (ge_nao g) in
    a <- index_slices r0 c [Some (0%Z, n)] ;;
    b <- index_slices r0 c [Some (n, Z.of_nat (nth 0 (shp c) 0%nat))] ;;
    x1 <- ao2mo (ge_ao g) [a; a; a; a] ;;
    x2 <- ao2mo (ge_ao g) [b; b; b; b] ;; y2 <- plus_arr x1 x2 ;;
    x3 <- ao2mo (ge_ao g) [a; a; b; b] ;; y3 <- plus_arr y2 x3 ;;
    x4 <- ao2mo (ge_ao g) [b; b; a; a] ;; y4 <- plus_arr y3 x4 ;;
    d <- transpose r0 y4 [0; 2; 1; 3]%nat ;;
    x <- transpose r0 y4 [0; 2; 3; 1]%nat ;;
    minus_arr d x.
  (** eris.py:132-142 [GERIs.__getitem__] *)
  Definition geris_get (g : geris) (key : pystr) : result (arr F) :=
    x <- geris_array g ;;
    if memb ch_p key then Err NotImplementedError else
    sls <- get_slices (repeat (ge_space g) 4) key ;;
    index_slices r0 x (map Some sls).

  (** * Density-fitted integrals *)
  (** [with_df._cderi]: one row per auxiliary function, the lower triangle of a symmetric matrix in each. *)
  Record cderis := mkcderis { cd_vec : arr F; cd_nao : nat; cd_spaces : list space; cd_coeffs : list (arr F) }.
  Definition tri_pos (p q : nat) : nat := (Nat.max p q * (Nat.max p q + 1) / 2 + Nat.min p q)%nat.
  Definition unpacked (c : cderis) : arr F :=
    tab [nth 0 (shp (cd_vec c)) 0%nat; cd_nao c; cd_nao c] (fun ix => aget r0 (cd_vec c) [nth 0 ix 0%nat; tri_pos (nth 1 ix 0%nat) (nth 2 ix 0%nat)]).
  (** cderis.py:52-71: [nr_e2] with aosym "s2", mosym "s1" as its defining sum (trusted) *)
  Definition cderis_block (c : cderis) (key : pystr) (e2 : bool) : result (arr F) :=
    cs <- get_coeffs (cd_spaces c) (cd_coeffs c) key (if e2 then 2 else 0)%nat ;;
    np_einsum F [str "Qpq"; str "pi"; str "qj"] (str "Qij") (unpacked c :: cs).
  Definition cd_key (key : pystr) (e2 : bool) : pystr := (key ++ str (if e2 then "_e2" else "_e1"))%list.
  (** cderis.py:27-73 [RCDERIs.__getitem__] for three characters (the first one is dropped unread) ... *)
  Definition cderis_get3 (c : cderis) (key : pystr) (e2 : bool) (m : members) : members * result (arr F) :=
    memo (cd_key (skipn 1 key) e2) (cderis_block c (skipn 1 key) e2) m.
  (** ... and for four, which are not cached themselves. *)
  Definition cderis_get (c : cderis) (key : pystr) (e2 : bool) (m : members) : members * result (arr F) :=
    if (length key =? 4)%nat then
      let (m1, r1') := cderis_get3 c (ch_Q :: firstn 2 key) false m in
      match r1' with
      | Err x => (m1, Err x)
      | Ok v1 =>
          let (m2, r2') := cderis_get3 c (ch_Q :: skipn 2 key) true m1 in
          match r2' with
          | Err x => (m2, Err x)
          | Ok v2 => (m2, np_einsum F [str "Qij"; str "Qkl"] (str "ijkl") [v1; v2])
          end
      end
    else if (length key =? 3)%nat then cderis_get3 c key e2 m
    else (m, Err KeyError).
  Definition cderis_run (c : cderis) (h : list (pystr * bool)) : members :=
    fold_left (fun m p => fst (cderis_get c (fst p) (snd p) m)) h [].
  Definition cderis_after (c : cderis) (h : list (pystr * bool)) (key : pystr) (e2 : bool) : result (arr F) :=
    snd (cderis_get c key e2 (cderis_run c h)).
End Ham.
