(** Model of ebcc/util/einsumfunc.py: parsing of subscripts, the contraction back ends, einsum
    for one and two operands, dirsum.  Not modelled: subscripts given as integer lists (lines 92-110),
    ellipses (lines 119-169), the TBLIS back end (lines 350-453) and numpy's contraction path for more than two operands
    (an argument of [einsum] below). *)
From Verif Require Import Base Alg ArrModel.
Set Implicit Arguments.
Local Open Scope py_scope.

Definition ch_comma := 44.
Definition ch_plus := 43.
Definition ch_minus := 45.
Definition ch_gt := 62.
Definition ch_space := 32.
Definition ch_dot := 46.
Definition arrow : pystr := [ch_minus; ch_gt].

(** einsumfunc.py:45-47: membership in EINSUM_SYMBOLS. *)
Definition is_letter (c : nat) : bool := ((97 <=? c) && (c <=? 122)) || ((65 <=? c) && (c <=? 90)).

(** [s.split(",")] and [s.split("->")] for a string containing "->" once. *)
Fixpoint split_comma (s : pystr) : list pystr :=
  match s with
  | [] => [[]]
  | c :: s' => if c =? ch_comma then [] :: split_comma s'
               else match split_comma s' with h :: t => (c :: h) :: t | [] => [[c]] end
  end.
Fixpoint split_arrow (s : pystr) : option (pystr * pystr) :=
  match s with
  | [] => None
  | c :: s' =>
      match s' with
      | d :: s'' => if (c =? ch_minus) && (d =? ch_gt) then Some ([], s'')
                    else match split_arrow s' with Some (a, b) => Some (c :: a, b) | None => None end
      | [] => None
      end
  end.
(** [s.count("->")]: occurrences cannot overlap. *)
Fixpoint count_arrow (s : pystr) : nat :=
  match s with
  | c :: ((d :: _) as s') => (if (c =? ch_minus) && (d =? ch_gt) then 1 else 0) + count_arrow s'
  | _ => 0
  end.
Definition remove_char (c : nat) (s : pystr) : pystr := filter (fun x => negb (x =? c)) s.

(** Environments assigning an index value to every letter. *)
Definition upd (e : nat -> nat) (c x : nat) : nat -> nat := fun c' => if c' =? c then x else e c'.
Definition env_of (cs vs : list nat) : nat -> nat :=
  fun c => match index_of c cs with Some k => nth k vs 0 | None => 0 end.

Section Scalars.
  Variable K : rng.
  Local Open Scope rng_scope.

  Definition arr_neg (a : arr K) : arr K := mkarr (shp a) (map ropp (dat a)).
  Definition scale (c : K) (a : arr K) : arr K := mkarr (shp a) (map (fun x => x * c) (dat a)).
  (** Sum of two arrays; broadcasting between different shapes is not modelled. *)
  Definition add_arr (a b : arr K) : result (arr K) :=
    if list_eq_dec Nat.eq_dec (shp a) (shp b)
    then Ok (mkarr (shp a) (map (fun p => fst p + snd p) (combine (dat a) (dat b)))) else Err BroadcastError.

  (** einsumfunc.py:72-83: signs are replaced by commas; a minus sign negates the operand it
      precedes. [j] counts operands. *)
  Fixpoint replace_signs (s : pystr) (j : nat) (ops : list (arr K)) : result (pystr * list (arr K)) :=
    match s with
    | [] => Ok ([], ops)
    | c :: s' =>
        if (c =? ch_plus)%nat then r <- replace_signs s' (S j) ops ;; Ok (ch_comma :: fst r, snd r)
        else if (c =? ch_minus)%nat then
          match s' with
          | [] => Err IndexError
          | d :: _ =>
              if (d =? ch_gt)%nat then r <- replace_signs s' j ops ;; Ok (c :: fst r, snd r)
              else match nth_error ops j with
                   | None => Err IndexError
                   | Some a => r <- replace_signs s' (S j) (lupd j (arr_neg a) ops) ;; Ok (ch_comma :: fst r, snd r)
                   end
          end
        else if (c =? ch_comma)%nat then r <- replace_signs s' (S j) ops ;; Ok (c :: fst r, snd r)
        else r <- replace_signs s' j ops ;; Ok (c :: fst r, snd r)
    end.

  Definition valid_char (c : nat) : bool :=
    memb c [ch_dot; ch_comma; ch_minus; ch_gt] || is_letter c.

  (** einsumfunc.py:176-183: letters occurring exactly once, in sorted order. *)
  Definition implicit_output (s : pystr) : result pystr :=
    let tmp := remove_char ch_comma s in
    let chars := sorted_py (dedup tmp) in
    if forallb is_letter chars then Ok (filter (fun c => count tmp c =? 1)%nat chars) else Err ValueError.

  (** einsumfunc.py:55-197 [_parse_einsum_input] for a string of subscripts followed by arrays. *)
  Definition parse_einsum (sub : pystr) (ops : list (arr K)) : result (pystr * pystr * list (arr K)) :=
    let s0 := remove_char ch_space sub in
    match s0 with
    | [] => Err IndexError
    | c0 :: _ =>
        let j := if memb c0 [ch_plus; ch_minus] then 0%nat else 1%nat in
        so <- replace_signs s0 j ops ;;
        let (s1, ops1) := (so : pystr * list (arr K)) in
        if negb (forallb valid_char s1) then Err ValueError else
        if (memb ch_minus s1 || memb ch_gt s1) &&
           negb ((count s1 ch_minus <=? 1)%nat && (count s1 ch_gt <=? 1)%nat && (count_arrow s1 =? 1)%nat)
        then Err ValueError else
        if memb ch_dot s1 then Err NotImplementedError (* ellipses: not modelled *) else
        io <- match split_arrow s1 with
              | Some (i, o) => Ok (i, o)
              | None => o <- implicit_output s1 ;; Ok (s1, o)
              end ;;
        let (inp, out) := (io : pystr * pystr) in
        if forallb (fun c => count out c =? 1)%nat out && forallb (fun c => memb c inp) out
        then Ok (inp, out, ops1) else Err ValueError
    end.

  (** einsumfunc.py:269-280 (and numpy's own check): extents per letter; a mismatch raises. *)
  Fixpoint ranges_loop (l : list (nat * nat)) (d : dict nat nat) : result (dict nat nat) :=
    match l with
    | [] => Ok d
    | (c, n) :: l' =>
        match dget Nat.eq_dec c d with
        | Some m => if (m =? n)%nat then ranges_loop l' (dset Nat.eq_dec c n d) else Err ValueError
        | None => ranges_loop l' (dset Nat.eq_dec c n d)
        end
    end.
  Definition extent (d : dict nat nat) (c : nat) : nat := match dget Nat.eq_dec c d with Some n => n | None => 0 end.
  Definition ranges_of (inps : list pystr) (args : list (arr K)) : result (dict nat nat) :=
    ranges_loop (flat_map (fun p => combine (fst p) (shp (snd p))) (combine inps args)) [].

  (** Sum over all values of the letters in a list. *)
  Fixpoint sum_over (size : nat -> nat) (L : list nat) (F : (nat -> nat) -> K) (e : nat -> nat) : K :=
    match L with
    | [] => F e
    | c :: L' => rsum (map (fun x => sum_over size L' F (upd e c x)) (seq 0 (size c)))
    end.

  (** [np.einsum] by its definition: every output element is the sum, over all values of the
      letters that are not in the output, of the product of the operands' elements.  numpy
      raises ValueError when the number of letters does not match the number of axes or extents
      differ (broadcasting of extents equal to one is not modelled). *)
  Definition ndims_ok (inps : list pystr) (args : list (arr K)) : bool :=
    (length inps =? length args)%nat &&
    forallb (fun p => (length (fst p) =? length (shp (snd p)))%nat) (combine inps args).
  Definition summed (inps : list pystr) (out : pystr) : list nat :=
    filter (fun c => negb (memb c out)) (dedup (concat inps)).
  Definition einsum_elem (inps : list pystr) (args : list (arr K)) (e : nat -> nat) : K :=
    rprod (map (fun p => aget r0 (snd p) (map e (fst p))) (combine inps args)).
  Definition np_einsum (inps : list pystr) (out : pystr) (args : list (arr K)) : result (arr K) :=
    if negb (ndims_ok inps args) then Err ValueError else
    rg <- ranges_of inps args ;;
    if forallb (fun c => count out c =? 1)%nat out && forallb (fun c => memb c (concat inps)) out
    then Ok (tab (map (extent rg) out)
              (fun o => sum_over (extent rg) (summed inps out) (einsum_elem inps args) (env_of out o)))
    else Err ValueError.

  (** einsumfunc.py:200-211, 214-227 [_transpose_backend], [_contract_backend]. *)
  Definition accumulate (beta : K) (out : option (arr K)) (res : arr K) : result (arr K) :=
    match out with None => Ok res | Some o => add_arr res (scale beta o) end.
  Definition transpose_backend (inp outs : pystr) (a : arr K) (alpha beta : K) (out : option (arr K)) : result (arr K) :=
    r <- np_einsum [inp] outs [a] ;; accumulate beta out (scale alpha r).
  Definition contract_backend (inp_a inp_b outs : pystr) (a b : arr K) (alpha beta : K) (out : option (arr K))
      : result (arr K) :=
    r <- np_einsum [inp_a; inp_b] outs [a; b] ;; accumulate beta out (scale alpha r).

  (** einsumfunc.py:285-291: [inp_at.insert(j, inp_at.pop(inp_at.index(ind)))] with
      [j = len(inp_at) - 1] (taken before the pop) and [inp_bt.insert(i, ...)]. *)
  Fixpoint remove_first (x : nat) (l : list nat) : list nat :=
    match l with [] => [] | y :: l' => if (x =? y)%nat then l' else y :: remove_first x l' end.
  Definition list_insert (i x : nat) (l : list nat) : list nat := firstn i l ++ x :: skipn i l.
  Fixpoint reorder (ds : list nat) (i : nat) (at_ bt : list nat) : list nat * list nat :=
    match ds with
    | [] => (at_, bt)
    | d :: ds' =>
        reorder ds' (S i) (list_insert (length at_ - 1) d (remove_first d at_)) (list_insert i d (remove_first d bt))
    end.
  Definition pos_in (l : list nat) (c : nat) : nat := match index_of c l with Some k => k | None => 0%nat end.
  (** Letters before the first one satisfying a predicate. *)
  Fixpoint take_until (f : nat -> bool) (l : list nat) : list nat :=
    match l with [] => [] | x :: l' => if f x then [] else x :: take_until f l' end.

  (** [scipy.linalg.blas.dgemm(alpha, a, b, beta=beta, c=c)] on matrices (equally
      [alpha * dot(a, b) + beta * c], lines 337-342). *)
  Definition gemm (alpha : K) (a b : arr K) (beta : K) (c : option (arr K)) : arr K :=
    let m := nth 0 (shp a) 0%nat in let k := nth 1 (shp a) 0%nat in let n := nth 1 (shp b) 0%nat in
    tab [m; n] (fun ij =>
      let i := nth 0 ij 0%nat in let j := nth 1 ij 0%nat in
      alpha * rsum (map (fun l => aget r0 a [i; l] * aget r0 b [l; j]) (seq 0 k)) +
      match c with None => 0 | Some c => beta * aget r0 c [i; j] end).

  (** einsumfunc.py:230-347 [_contract_ttgt]; [min_size] is BACKEND_EINSUM_SIZE (line 39). *)
  Definition contract_ttgt (min_size : nat) (beta_is_one : bool) (inp_a inp_b outs : pystr) (a b : arr K)
      (alpha beta : K) (out : option (arr K)) : result (arr K) :=
    let fallback := contract_backend inp_a inp_b outs a b alpha beta out in
    if (Nat.min (length (dat a)) (length (dat b)) <? min_size)%nat then fallback else
    let indices := inp_a ++ inp_b ++ outs in
    if existsb (fun x => negb (count indices x =? 2)%nat) (dedup indices) then fallback else
    (* the subscript is parsed again, which validates the output letters *)
    if negb (forallb (fun c => count outs c =? 1)%nat outs && forallb (fun c => memb c (inp_a ++ inp_b)) outs)
    then Err ValueError else
    if negb (ndims_ok [inp_a; inp_b] [a; b]) then Err AssertionError else
    if existsb (fun i : pystr => negb (length i =? length (dedup i))%nat) [inp_a; inp_b] then fallback else
    let dummy := filter (fun c => memb c inp_b) (dedup inp_a) in
    if (length dummy =? 0)%nat || forallb (fun c => memb c dummy) inp_a || forallb (fun c => memb c dummy) inp_b
    then fallback else
    rg <- ranges_of [inp_a; inp_b] [a; b] ;;
    let ds := sorted_py dummy in
    let (inp_at, inp_bt) := reorder ds 0 inp_a inp_b in
    let inner := prodn (map (extent rg) ds) in
    let order_a := map (pos_in inp_a) inp_at in
    let order_b := map (pos_in inp_b) inp_bt in
    let inp_ct := take_until (fun c => memb c dummy) inp_at ++ filter (fun c => negb (memb c dummy)) inp_bt in
    let shape_ct := map (extent rg) inp_ct in
    let order_ct := map (pos_in inp_ct) outs in
    if (length (dat a) =? 0)%nat || (length (dat b) =? 0)%nat then
      let shape_c := map (fun i => nth i shape_ct 0%nat) order_ct in
      match out with
      | Some o => r <- reshape o shape_c ;; Ok (if beta_is_one then r else scale beta r)
      | None => Ok (full shape_c 0)
      end
    else
      at1 <- transpose 0 a order_a ;;
      bt1 <- transpose 0 b order_b ;;
      (* [reshape(at, (-1, inner))]: the missing extent is size / inner *)
      at2 <- reshape at1 [length (dat at1) / inner; inner]%nat ;;
      bt2 <- reshape bt1 [inner; length (dat bt1) / inner]%nat ;;
      out2 <- match out with
              | None => Ok None
              | Some o =>
                  ot <- transpose 0 o (map (pos_in outs) inp_ct) ;;
                  r <- reshape ot [nth 0 (shp at2) 0; nth 1 (shp bt2) 0]%nat ;; Ok (Some r)
              end ;;
      ct <- reshape (gemm alpha at2 bt2 beta out2) shape_ct ;;
      transpose 0 ct order_ct.

  (** einsumfunc.py:456-541 [einsum]; [method] selects CONTRACTION_METHOD: [None] is "backend",
      [Some n] is "ttgt" with BACKEND_EINSUM_SIZE = n.  [trivial] says that alpha = 1 and beta = 0;
      [path] is the list of contractions numpy's path optimiser returns for more than two
      operands, whose evaluation is not modelled beyond the scaling check. *)
  Definition einsum (method : option nat) (beta_is_one trivial : bool) (path : nat) (sub : pystr) (ops : list (arr K))
      (alpha beta : K) (out : option (arr K)) (rest : result (arr K)) : result (arr K) :=
    p <- parse_einsum sub ops ;;
    match p with
    | (inp, outs, args) =>
        match args, split_comma inp with
        | [], _ => Err ValueError
        | [a], [ia] => transpose_backend ia outs a alpha beta out
        | [a; b], [ia; ib] =>
            match method with
            | None => contract_backend ia ib outs a b alpha beta out
            | Some n => contract_ttgt n beta_is_one ia ib outs a b alpha beta out
            end
        | _ :: _ :: _ :: _, _ =>
            match path with 0%nat => Err NameError | S _ => if trivial then rest else Err NotImplementedError end
        | _, _ => Err ValueError
        end
    end.

  (** einsumfunc.py:544-575 [dirsum].  ["".join(set(chars))] has an unspecified order; any order
      gives the same result because the last step selects by letter; the model uses order of
      first appearance. *)
  Fixpoint dirsum_loop (l : list (pystr * arr K)) (acc : option (arr K)) (chars : pystr) : result (arr K * pystr) :=
    match l with
    | [] => match acc with Some r => Ok (r, chars) | None => Err NameError end
    | (cs, a) :: l' =>
        if negb (length cs =? length (shp a))%nat then Err ValueError else
        ca <- (if (length (dedup cs) =? length cs)%nat then Ok (cs, a)
               else r <- transpose_backend cs (dedup cs) a 1 0 None ;; Ok (dedup cs, r)) ;;
        let (cs', a') := (ca : pystr * arr K) in
        match acc with
        | None => dirsum_loop l' (Some a') cs'
        | Some r =>
            (* [reshape(res, res.shape + (1,) * ndim) + array]: outer sum *)
            dirsum_loop l'
              (Some (tab (shp r ++ shp a') (fun idx =>
                 aget 0 r (firstn (length (shp r)) idx) + aget 0 a' (skipn (length (shp r)) idx))))
              (chars ++ cs')
        end
    end.
  Definition dirsum (sub : pystr) (ops : list (arr K)) : result (arr K) :=
    p <- parse_einsum sub ops ;;
    match p with
    | (inp, outs, args) =>
        rc <- dirsum_loop (combine (split_comma inp) args) None [] ;;
        transpose_backend (snd rc ++ concat (skipn (length args) (split_comma inp))) outs (fst rc) 1 0 None
    end.
End Scalars.
