(** Model of the methods shared by the three coupled cluster classes: energy denominators, starting
    amplitudes, updates, density matrices after the generated code, and the coherent-state shift.
    ebcc/cc/rebcc.py, ebcc/cc/gebcc.py, ebcc/cc/uebcc.py and ebcc/cc/base.py; lines are cited below.
    Arrays are exact over a field.  Broadcasting between different shapes is not modelled: an
    element-wise operation on arrays of different shape is an error.  The generated equations are
    arguments.  In-place operators rebind, as no two entries of a namespace share an array here. *)
From Coq Require Import String.
From Verif Require Import Base Alg ArrModel PermModel TensorModel EinsumModel SpaceModel AnsatzModel VecModel.
Set Implicit Arguments.
Local Open Scope nat_scope.
Local Open Scope list_scope.
Local Open Scope py_scope.

(** rebcc.py:460-467: [next_char], the [n]-th letter. *)
Definition next_char (n : nat) : nat := if n <? 26 then 97 + n else 65 + n.
(** rebcc.py:484: [",".join([next_char() for k in subscript])] *)
Definition sum_letters (n : nat) : pystr :=
  match n with
  | 0 => []
  | S m => next_char 0 :: flat_map (fun i => [ch_comma; next_char i]) (seq 1 m)
  end.
(** rebcc.py:469-473, gebcc.py:711-715, uebcc.py:620-624: missing signs are filled in; this is also what the
    dictionary passed by the caller becomes. *)
Definition fill_signs (signs : dict nat pystr) : dict nat pystr :=
  fold_left (fun d ks => if dmem Nat.eq_dec (fst ks) d then d else dset Nat.eq_dec (fst ks) [snd ks] d)
            (combine (str "vVaoOib") (str "---+++-")) signs.

(** rebcc.py:246, 300 (also gebcc.py:488, 542, uebcc.py:364, 427): the namespace whose keys have had
    the letters of "new" stripped from the right *)
Definition strip_new {A} (res : dict pystr A) : dict pystr A :=
  fold_left (fun d kv => dset pystr_eq_dec (rstrip (str "new") (fst kv)) (snd kv) d) res [].
(** [d[name]] on a Namespace. *)
Definition lookup {A} (name : pystr) (d : dict pystr A) : result A :=
  match dget pystr_eq_dec name d with Some v => Ok v | None => Err KeyError end.
Definition as_arr {A} (v : tval A) : result (arr A) := match v with VArr x => Ok x | VSpin _ => Err TypeError end.
Definition as_spin {A} (v : tval A) : result (dict pystr (arr A)) := match v with VSpin d => Ok d | VArr _ => Err TypeError end.

Section Cc.
  Variable F : fld.
  Local Notation amps := (dict pystr (tval F)).

  Definition two : F := radd r1 r1.
  Definition half : F := fdiv r1 two.

  (** Element-wise operators. *)
  Definition zip_arr (f : F -> F -> F) (a b : arr F) : result (arr F) :=
    if list_eq_dec Nat.eq_dec (shp a) (shp b)
    then Ok (mkarr (shp a) (map (fun p => f (fst p) (snd p)) (combine (dat a) (dat b)))) else Err BroadcastError.
  Definition map_arr (f : F -> F) (a : arr F) : arr F := mkarr (shp a) (map f (dat a)).
  Definition div_arr := zip_arr fdiv.
  Definition plus_arr := zip_arr radd.
  Definition minus_arr := zip_arr rsub.
  Definition zeros (s : list nat) : arr F := full s r0.
  (** [np.diag] of a matrix. *)
  Definition np_diag (a : arr F) : result (arr F) :=
    match shp a with
    | [n; m] => Ok (tab [Nat.min n m] (fun idx => aget r0 a [nth 0 idx 0; nth 0 idx 0]))
    | _ => Err ValueError
    end.
  (** [np.transpose(a)] without axes. *)
  Definition reverse_axes (a : arr F) : result (arr F) := transpose r0 a (rev (seq 0 (length (shp a)))).

  (** The data of a restricted or general calculation: [self.fock[key]], [eris[key]], [self.g[key]]. *)
  Record cc := mkcc {
    cc_ansatz : ansatz; cc_space : space;
    cc_fock : pystr -> result (arr F); cc_eris : pystr -> result (arr F);
    cc_g : option (pystr -> result (arr F)); cc_G : option (arr F);
    cc_omega : option (arr F); cc_bare_G : option (arr F); cc_shift : bool }.
  (** ... and of an unrestricted one: [self.fock[spins][key]] and so on. *)
  Record ucc := mkucc {
    u_ansatz : ansatz; u_alpha : space; u_beta : space;
    u_fock : pystr -> pystr -> result (arr F); u_eris : pystr -> pystr -> result (arr F);
    u_g : option (pystr -> pystr -> result (arr F)); u_G : option (arr F);
    u_omega : option (arr F); u_bare_G : option (arr F); u_shift : bool }.

  (** base.py:1067-1076 [nbos] *)
  Definition nbos_of (omega : option (arr F)) : nat := match omega with None => 0 | Some w => nth 0 (shp w) 0 end.

  (** rebcc.py:476-482: one term of the denominator. *)
  Definition signed_energy (signs : dict nat pystr) (omega : option (arr F)) (fock : pystr -> result (arr F)) (key : nat)
      : result (arr F) :=
    match dget Nat.eq_dec key signs with
    | None => Err KeyError
    | Some s =>
        let factor : F := if streqb s (str "+") then r1 else ropp r1 in
        if key =? chr_of "b"
        then match omega with None => Err AssertionError | Some w => Ok (scale F factor w) end
        else f <- fock [key; key] ;; d <- np_diag f ;; Ok (scale F factor d)
    end.
  (** rebcc.py:446-487, gebcc.py:688-729 [energy_sum]. *)
  Definition energy_sum (c : cc) (sub : pystr) (signs : dict nat pystr) : result (arr F) :=
    es <- mapM (signed_energy (fill_signs signs) (cc_omega c) (cc_fock c)) sub ;;
    dirsum F (sum_letters (length sub)) es.
  (** uebcc.py:597-638; [zip(subscript, spins)] cuts to the shorter. *)
  Definition u_energy_sum (c : ucc) (sub spins : pystr) (signs : dict nat pystr) : result (arr F) :=
    es <- mapM (fun ks => signed_energy (fill_signs signs) (u_omega c) (u_fock c [snd ks; snd ks]) (fst ks)) (combine sub spins) ;;
    dirsum F (sum_letters (length sub)) es.

  (** rebcc.py:155-163, the first-order fermionic guess; [n] is the excitation rank. *)
  Definition r_guess (c : cc) (key : pystr) (n : nat) : result (arr F) :=
    if n =? 1 then
      f <- cc_fock c key ;; e <- energy_sum c key [] ;; div_arr f e
    else if n =? 2 then
      match key with
      | [k0; k1; k2; k3] =>
          v <- cc_eris c [k0; k2; k1; k3] ;; t <- transpose r0 v [0; 2; 1; 3] ;; e <- energy_sum c key [] ;; div_arr t e
      | _ => Err IndexError
      end
    else s <- key_shape (cc_space c) key ;; Ok (zeros s).
  (** gebcc.py:398-405: the general class *)
  Definition g_guess (c : cc) (key : pystr) (n : nat) : result (arr F) :=
    if n =? 1 then f <- cc_fock c key ;; e <- energy_sum c key [] ;; div_arr f e
    else if n =? 2 then v <- cc_eris c key ;; e <- energy_sum c key [] ;; div_arr v e
    else s <- key_shape (cc_space c) key ;; Ok (zeros s).
  (** rebcc.py:166-173, gebcc.py:408-415, uebcc.py:267-274: the bosonic guess. *)
  Definition boson_guess (omega G : option (arr F)) (n : nat) : result (arr F) :=
    match omega, G with
    | Some w, Some G => if n =? 1 then div_arr (map_arr ropp G) w else Ok (zeros (repeat (nbos_of omega) n))
    | _, _ => Err ValueError
    end.
  (** rebcc.py:176-185, gebcc.py:418-427; [first] is the condition guarding the coupling element. *)
  Definition coupling_guess (c : cc) (key : pystr) (nf nb : nat) (first : result bool) : result (arr F) :=
    match cc_omega c, cc_g c with
    | Some _, Some g =>
        if negb (nf =? 1) then Err ModelNotImplemented else
        b <- first ;;
        if b then x <- g key ;; e <- energy_sum c key [] ;; div_arr x e
        else s <- key_shape (cc_space c) (skipn nb key) ;; Ok (zeros (repeat (nbos_of (cc_omega c)) nb ++ s))
    | _, _ => Err ValueError
    end.

  (** [amplitudes[name] = ...] in a loop over the cluster ranks. *)
  Definition set_all {E} (name : E -> pystr) (value : E -> result (tval F)) (l : list E) (d : amps) : result amps :=
    foldM (fun d e => v <- value e ;; Ok (dset pystr_eq_dec (name e) v d)) l d.
  Definition fname (e : entry) : pystr := fst (fst e).
  Definition cname (e : pystr * pystr * nat * nat) : pystr := fst (fst (fst e)).
  Definition arr_of {E} (f : E -> result (arr F)) (e : E) : result (tval F) := x <- f e ;; Ok (VArr x).

  (** rebcc.py:142-187 [REBCC.init_amps]. *)
  Definition r_init_amps (c : cc) : result amps :=
    fs <- fermionic_cluster_ranks (cc_ansatz c) true Wt ;;
    d1 <- set_all fname (arr_of (fun '(_, key, n) => r_guess c key n)) fs [] ;;
    bs <- bosonic_cluster_ranks (cc_ansatz c) Wt ;;
    d2 <- set_all fname (arr_of (fun '(_, _, n) => boson_guess (cc_omega c) (cc_G c) n)) bs d1 ;;
    cs <- coupling_cluster_ranks (cc_ansatz c) Wt ;;
    set_all cname (arr_of (fun '(_, key, nf, nb) => coupling_guess c key nf nb (Ok (nb =? 1)))) cs d2.

  (** gebcc.py:423 tests [n == 1] in the coupling loop, where [n] is what the last of the two
      earlier loops that ran left in it (unbound if neither ran). *)
  Definition last_n (fs bs : list entry) : result bool :=
    match rev bs, rev fs with
    | (_, _, n) :: _, _ => Ok (n =? 1)
    | [], (_, _, n) :: _ => Ok (n =? 1)
    | [], [] => Err NameError
    end.
  (** gebcc.py:385-429 [GEBCC.init_amps]. *)
  Definition g_init_amps (c : cc) : result amps :=
    fs <- fermionic_cluster_ranks (cc_ansatz c) false Wt ;;
    d1 <- set_all fname (arr_of (fun '(_, key, n) => g_guess c key n)) fs [] ;;
    bs <- bosonic_cluster_ranks (cc_ansatz c) Wt ;;
    d2 <- set_all fname (arr_of (fun '(_, _, n) => boson_guess (cc_omega c) (cc_G c) n)) bs d1 ;;
    cs <- coupling_cluster_ranks (cc_ansatz c) Wt ;;
    set_all cname (arr_of (fun '(_, key, nf, nb) => coupling_guess c key nf nb (last_n fs bs))) cs d2.

  (** uebcc.py:249-263: the fermionic guess for one spin combination. *)
  Definition u_guess (c : ucc) (key : pystr) (n : nat) (comb : pystr) : result (arr F) :=
    if n =? 1 then f <- u_fock c comb key ;; e <- u_energy_sum c key comb [] ;; div_arr f e
    else if n =? 2 then
      match comb, key with
      | [s0; s1; s2; s3], [k0; k1; k2; k3] =>
          v <- u_eris c [s0; s2; s1; s3] [k0; k2; k1; k3] ;;
          t <- transpose r0 v [0; 2; 1; 3] ;; e <- u_energy_sum c key comb [] ;; x <- div_arr t e ;;
          if streqb comb (str "aaaa") || streqb comb (str "bbbb")
          then y <- transpose r0 x [1; 0; 2; 3] ;; z <- minus_arr x y ;; Ok (map_arr (fun v => rmul v half) z)
          else Ok x
      | _, _ => Err IndexError
      end
    else s <- spin_shape (u_alpha c) (u_beta c) key comb ;; Ok (zeros s).
  (** uebcc.py:277-299: both coupling denominators use the spin string "_aa" and both shapes the
      alpha space. *)
  Definition u_coupling_guess (c : ucc) (key : pystr) (nf nb : nat) : result (tval F) :=
    match u_omega c, u_g c with
    | Some _, Some g =>
        if negb (nf =? 1) then Err ModelNotImplemented else
        if nb =? 1 then
          xa <- g (str "aa") key ;; ea <- u_energy_sum c key (str "_aa") [] ;; a <- div_arr xa ea ;;
          xb <- g (str "bb") key ;; eb <- u_energy_sum c key (str "_aa") [] ;; b <- div_arr xb eb ;;
          Ok (VSpin [(str "aa", a); (str "bb", b)])
        else
          s <- key_shape (u_alpha c) (skipn nb key) ;;
          let z := zeros (repeat (nbos_of (u_omega c)) nb ++ s) in
          Ok (VSpin [(str "aa", z); (str "bb", z)])
    | _, _ => Err ValueError
    end.
  (** uebcc.py:234-301 [UEBCC.init_amps]. *)
  Definition u_init_amps (c : ucc) : result amps :=
    fs <- fermionic_cluster_ranks (u_ansatz c) false Wt ;;
    d1 <- set_all fname (fun '(_, key, n) =>
            l <- mapM (fun comb => x <- u_guess c key n comb ;; Ok (comb, x)) (generate_spin_combinations n false true) ;;
            Ok (VSpin l)) fs [] ;;
    bs <- bosonic_cluster_ranks (u_ansatz c) Wt ;;
    d2 <- set_all fname (arr_of (fun '(_, _, n) => boson_guess (u_omega c) (u_G c) n)) bs d1 ;;
    cs <- coupling_cluster_ranks (u_ansatz c) Wt ;;
    set_all cname (fun '(_, key, nf, nb) => u_coupling_guess c key nf nb) cs d2.

  (** rebcc.py:189-223, gebcc.py:431-465 [init_lams]. *)
  Definition bra_ket (n : nat) : list nat := seq n n ++ seq 0 n.
  Definition rg_init_lams (a : ansatz) (rspin : bool) (t : amps) : result amps :=
    fs <- fermionic_cluster_ranks a rspin Wt ;;
    d1 <- set_all (fun e => replace_chr (chr_of "t") (str "l") (fname e))
            (arr_of (fun e => v <- lookup (fname e) t ;; x <- as_arr v ;; transpose r0 x (bra_ket (snd e)))) fs [] ;;
    bs <- bosonic_cluster_ranks a Wt ;;
    d2 <- set_all (fun e => str "l" ++ fname e) (fun e => lookup (fname e) t) bs d1 ;;
    cs <- coupling_cluster_ranks a Wt ;;
    set_all (fun e => str "l" ++ cname e)
      (arr_of (fun e => let '(name, _, nf, nb) := e in
         if negb (nf =? 1) then Err ModelNotImplemented else
         v <- lookup name t ;; x <- as_arr v ;; transpose r0 x (seq 0 nb ++ [nb + 1; nb]))) cs d2.

  (** uebcc.py:303-341 [init_lams]: every spin block is transposed and keeps its spin string. *)
  Definition transpose_spins (axes : list nat) (v : tval F) : result (tval F) :=
    d <- as_spin v ;; l <- mapM (fun kx => y <- transpose r0 (snd kx) axes ;; Ok (fst kx, y)) d ;; Ok (VSpin l).
  Definition u_init_lams (a : ansatz) (t : amps) : result amps :=
    fs <- fermionic_cluster_ranks a false Wt ;;
    d1 <- set_all (fun e => replace_chr (chr_of "t") (str "l") (fname e))
            (fun e => v <- lookup (fname e) t ;; transpose_spins (bra_ket (snd e)) v) fs [] ;;
    bs <- bosonic_cluster_ranks a Wt ;;
    d2 <- set_all (fun e => str "l" ++ fname e) (fun e => lookup (fname e) t) bs d1 ;;
    cs <- coupling_cluster_ranks a Wt ;;
    set_all (fun e => str "l" ++ cname e)
      (fun e => let '(name, _, nf, nb) := e in
         if negb (nf =? 1) then Err ModelNotImplemented else
         v <- lookup name t ;; transpose_spins (seq 0 nb ++ [nb + 1; nb]) v) cs d2.

  (** rebcc.py:250-251, 305-307: one block of the update; [keep] says whether the old value is added. *)
  Definition update_entry (keep : bool) (denominator : result (arr F)) (old : amps) (name : pystr) (res : amps) : result amps :=
    v <- lookup name res ;; r <- as_arr v ;; e <- denominator ;; x <- div_arr r e ;;
    y <- (if keep then w <- lookup name old ;; t <- as_arr w ;; plus_arr x t else Ok x) ;;
    Ok (dset pystr_eq_dec name (VArr y) res).
  (** rebcc.py:225-265, 267-329 and gebcc.py:467-507, 509-571 [update_amps], [update_lams]: what is
      done with the result [res] of the generated code.  [w] says which; [keep] is false for
      perturbative lambdas. *)
  Definition rg_update (c : cc) (rspin : bool) (w : which) (keep : bool) (old res : amps) : result amps :=
    fs <- fermionic_cluster_ranks (cc_ansatz c) rspin w ;;
    d1 <- foldM (fun d e => update_entry keep (energy_sum c (snd (fst e)) []) old (fname e) d) fs (strip_new res) ;;
    bs <- bosonic_cluster_ranks (cc_ansatz c) w ;;
    d2 <- foldM (fun d e => update_entry keep (energy_sum c (snd (fst e)) []) old (fname e) d) bs d1 ;;
    cs <- coupling_cluster_ranks (cc_ansatz c) w ;;
    foldM (fun d e => let '(name, key, nf, nb) := e in
             if negb (nf =? 1) then Err ModelNotImplemented else
             update_entry keep (energy_sum c key []) old name d) cs d2.
  Definition rg_update_amps (c : cc) (rspin : bool) (func : amps -> result amps) (t : amps) : result amps :=
    res <- func t ;; rg_update c rspin Wt true t res.
  (** Lambdas: the perturbative lambdas are merged into the lambdas first; the new namespace of
      lambdas is returned too because the caller's is modified (rebcc.py:290-291). *)
  Definition merge (l : amps) (pert : option amps) : amps :=
    match pert with None => l | Some p => fold_left (fun d kv => dset pystr_eq_dec (fst kv) (snd kv) d) p l end.
  Definition r_update_lams (c : cc) (func : bool -> amps -> result amps) (l : amps) (pert : option amps) (perturbative : bool)
      : result amps * amps :=
    let l' := merge l pert in
    (res <- func perturbative l' ;; x <- rg_update c true Wl (negb perturbative) l' res ;;
     Ok (if perturbative then map (fun kv => (fst kv ++ str "pert", snd kv)) x else x), l').
  (** gebcc.py:569 uses [Namespace], which the module imports only for type checking. *)
  Definition g_update_lams (c : cc) (func : bool -> amps -> result amps) (l : amps) (pert : option amps) (perturbative : bool)
      : result amps * amps :=
    let l' := merge l pert in
    (res <- func perturbative l' ;; x <- rg_update c false Wl (negb perturbative) l' res ;;
     if perturbative then Err NameError else Ok x, l').

  (** uebcc.py:369-374, 434-439: one spin block: divide, add, antisymmetrise. *)
  Definition u_update_spin (c : ucc) (key : pystr) (n : nat) (old res : dict pystr (arr F)) (comb : pystr)
      : result (dict pystr (arr F)) :=
    sc <- combine_subscripts [key; comb] [] ;;
    r <- lookup comb res ;; e <- u_energy_sum c key comb [] ;; x <- div_arr r e ;;
    t <- lookup comb old ;; y <- plus_arr x t ;;
    z <- symmetrise F (Some half_pow) (fst sc) y (Some (repeat TensorModel.ch_minus (2 * n))) ;;
    Ok (dset pystr_eq_dec comb z res).
  (** uebcc.py:385-392: the coupling blocks. *)
  Definition u_update_coupling (c : ucc) (key : pystr) (nb : nat) (old res : dict pystr (arr F)) (comb : pystr)
      : result (dict pystr (arr F)) :=
    r <- lookup comb res ;; e <- u_energy_sum c key (repeat (chr_of "_") nb ++ comb) [] ;; x <- div_arr r e ;;
    t <- lookup comb old ;; y <- plus_arr x t ;; Ok (dset pystr_eq_dec comb y res).
  (** uebcc.py:343-394, 396-461 [update_amps], [update_lams].  The namespace holding the spin blocks
      exists when there is a block to set, which [generate_spin_combinations] guarantees. *)
  Definition u_update (c : ucc) (w : which) (old res : amps) : result amps :=
    fs <- fermionic_cluster_ranks (u_ansatz c) false w ;;
    d1 <- foldM (fun d e => let '(name, key, n) := e in
            v <- lookup name d ;; r <- as_spin v ;; w <- lookup name old ;; o <- as_spin w ;;
            r' <- foldM (u_update_spin c key n o) (generate_spin_combinations n false true) r ;;
            Ok (dset pystr_eq_dec name (VSpin r') d)) fs (strip_new res) ;;
    bs <- bosonic_cluster_ranks (u_ansatz c) w ;;
    d2 <- foldM (fun d e => update_entry true (u_energy_sum c (snd (fst e)) (repeat (chr_of "_") (snd e)) []) old (fname e) d) bs d1 ;;
    cs <- coupling_cluster_ranks (u_ansatz c) w ;;
    foldM (fun d e => let '(name, key, nf, nb) := e in
             if negb (nf =? 1) then Err ModelNotImplemented else
             v <- lookup name d ;; r <- as_spin v ;; w <- lookup name old ;; o <- as_spin w ;;
             r' <- foldM (u_update_coupling c key nb o) [str "aa"; str "bb"] r ;;
             Ok (dset pystr_eq_dec name (VSpin r') d)) cs d2.

  (** rebcc.py:358, gebcc.py:600, uebcc.py:490-491: [(dm + np.transpose(dm)) * 0.5]. *)
  Definition hermitise1 (dm : arr F) : result (arr F) :=
    t <- reverse_axes dm ;; s <- plus_arr dm t ;; Ok (scale F half s).
  (** rebcc.py:389-390, gebcc.py:631-632 and uebcc.py:523-529 [transpose1], [transpose2]. *)
  Definition average (axes : list nat) (dm : arr F) : result (arr F) :=
    a <- transpose r0 dm [0; 1; 2; 3] ;; b <- transpose r0 dm axes ;; s <- plus_arr a b ;; Ok (scale F half s).
  Definition hermitise2 (dm : arr F) : result (arr F) :=
    x <- average [2; 3; 0; 1] dm ;; average [1; 0; 3; 2] x.
  (** uebcc.py:531-533 *)
  Definition u_hermitise2 (aaaa aabb bbbb : arr F) : result (arr F * arr F * arr F) :=
    x <- hermitise2 aaaa ;; y <- average [1; 0; 3; 2] aabb ;; z <- hermitise2 bbbb ;; Ok (x, y, z).
  (** rebcc.py:432-437, gebcc.py:674-679, uebcc.py:575-586: the two parts of the electron-boson density matrix. *)
  Definition hermitise_eb (d : arr F * arr F) : result (arr F * arr F) :=
    t1 <- transpose r0 (snd d) [0; 2; 1] ;; x <- plus_arr (fst d) t1 ;;
    t0 <- transpose r0 (fst d) [0; 2; 1] ;; y <- plus_arr (snd d) t0 ;;
    Ok (scale F half x, scale F half y).
  (** rebcc.py:439-442, gebcc.py:681-684, uebcc.py:588-593: removing the shift. *)
  Definition unshift (xi dm1 : arr F) (d : arr F * arr F) : result (arr F * arr F) :=
    s <- np_einsum F [str "x"; str "ij"] (str "xij") [xi; dm1] ;;
    x <- minus_arr (fst d) s ;; y <- minus_arr (snd d) s ;; Ok (x, y).

  (** rebcc.py:615, 632, gebcc.py:857, 874, uebcc.py:812-813, 832-833: [einsum("Ipp->I", boo)], times two in the
      restricted class, summed over the spins in the unrestricted class. *)
  Definition trace_boo (boo : arr F) : result (arr F) := np_einsum F [str "Ipp"] (str "I") [boo].
  Definition drive (c : cc) (rspin : bool) : result (arr F) :=
    match cc_g c with
    | None => Err AssertionError
    | Some g => boo <- g (str "boo") ;; t <- trace_boo boo ;; Ok (if rspin then scale F two t else t)
    end.
  Definition u_drive (c : ucc) : result (arr F) :=
    match u_g c with
    | None => Err AssertionError
    | Some g => a <- g (str "aa") (str "boo") ;; b <- g (str "bb") (str "boo") ;;
                x <- trace_boo a ;; y <- trace_boo b ;; plus_arr x y
    end.
  (** rebcc.py:622-638, gebcc.py:864-880, uebcc.py:822-839 [xi]. *)
  Definition xi_of (shift : bool) (omega : option (arr F)) (bare_G : option (arr F)) (drive : result (arr F)) : result (arr F) :=
    match omega with
    | None => Err AssertionError
    | Some w =>
        if shift then
          d <- drive ;; x <- div_arr d w ;;
          match bare_G with None => Ok x | Some b => y <- div_arr b w ;; plus_arr x y end
        else Ok (zeros (shp w))
    end.
  (** rebcc.py:605-619, gebcc.py:847-861, uebcc.py:802-819 [get_mean_field_G]. *)
  Definition mean_field_G (shift : bool) (omega : option (arr F)) (bare_G : option (arr F)) (drive : result (arr F)) : result (arr F) :=
    match omega with
    | None => Err AssertionError
    | Some w =>
        d <- drive ;; xi <- xi_of shift omega bare_G drive ;; xw <- zip_arr rmul xi w ;; v <- minus_arr d xw ;;
        match bare_G with None => Ok v | Some b => plus_arr v b end
    end.
  Definition xi (c : cc) (rspin : bool) := xi_of (cc_shift c) (cc_omega c) (cc_bare_G c) (drive c rspin).
  Definition get_mean_field_G (c : cc) (rspin : bool) := mean_field_G (cc_shift c) (cc_omega c) (cc_bare_G c) (drive c rspin).
  Definition u_xi (c : ucc) := xi_of (u_shift c) (u_omega c) (u_bare_G c) (u_drive c).
  Definition u_get_mean_field_G (c : ucc) := mean_field_G (u_shift c) (u_omega c) (u_bare_G c) (u_drive c).
  (** base.py:1003-1013 [const]. *)
  Definition const (shift : bool) (omega : option (arr F)) (xi : result (arr F)) : result F :=
    if shift then
      match omega with
      | None => Err AssertionError
      | Some w => x <- xi ;; r <- np_einsum F [str "I"; str "I"] [] [w; map_arr (fun v => rmul v v) x] ;; Ok (aget r0 r [])
      end
    else Ok r0.
End Cc.
Arguments two {F}. Arguments half {F}. Arguments zip_arr {F}. Arguments map_arr {F}. Arguments div_arr {F}. Arguments plus_arr {F}.
Arguments minus_arr {F}. Arguments zeros {F}. Arguments np_diag {F}. Arguments reverse_axes {F}. Arguments nbos_of {F}.
Arguments signed_energy {F}. Arguments boson_guess {F}. Arguments set_all {F E}. Arguments arr_of {F E}. Arguments rg_init_lams {F}. Arguments transpose_spins {F}. Arguments u_init_lams {F}.
Arguments update_entry {F}. Arguments merge {F}. Arguments hermitise1 {F}. Arguments average {F}. Arguments hermitise2 {F}.
Arguments u_hermitise2 {F}. Arguments hermitise_eb {F}. Arguments unshift {F}. Arguments trace_boo {F}. Arguments xi_of {F}.
Arguments mean_field_G {F}. Arguments const {F}.
