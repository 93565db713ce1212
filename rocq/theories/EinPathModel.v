(** Model of the remaining parts of ebcc/util/einsumfunc.py: subscripts given as lists of integers and
    contractions of more than two operands.  numpy's path optimiser is not modelled: the list of
    contractions it returns is an argument. *)
From Verif Require Import Base Alg ArrModel EinsumModel.
From Coq Require Import String.
Set Implicit Arguments.
Local Open Scope py_scope.

(** One element of [np.einsum_path(..., einsum_call=True)[1]] (einsumfunc.py:516-526): the positions which
    are popped and the contraction string "ab,bc->ac", given here by its letters. *)
Record contraction := mkcon { c_inds : list nat; c_inps : list pystr; c_out : pystr }.

(** [l.pop(i)]. *)
Fixpoint pop_at {A} (i : nat) (l : list A) {struct l} : result (A * list A) :=
  match l with
  | [] => Err IndexError
  | x :: l' => match i with
               | 0 => Ok (x, l')
               | S i' => r <- pop_at i' l' ;; Ok (fst r, x :: snd r)
               end
  end.
(** einsumfunc.py:526 [[args.pop(x) for x in inds]]: the popped elements, in order, and what is left. *)
Fixpoint pops {A} (inds : list nat) (l : list A) : result (list A * list A) :=
  match inds with
  | [] => Ok ([], l)
  | i :: inds' => r <- pop_at i l ;; q <- pops inds' (snd r) ;; Ok (fst r :: fst q, snd q)
  end.

(** einsumfunc.py:45 [EINSUM_SYMBOLS]. *)
Definition symbols : pystr := str "abcdefghijklmnopqrstuvwxyzABCDEFGHIJKLMNOPQRSTUVWXYZ".
Definition symbol (i : nat) : result nat :=
  match nth_error symbols i with Some c => Ok c | None => Err IndexError end.

(** einsumfunc.py:99-105. *)
Fixpoint join_groups (gs : list pystr) : pystr :=
  match gs with
  | [] => []
  | g :: gs' => match gs' with [] => g | _ => g ++ ch_comma :: join_groups gs' end
  end.

Section Scalars.
  Variable K : rng.
  Local Open Scope rng_scope.

  (** einsumfunc.py:112-197: the part of the parser which follows the construction of the string, as in
      [parse_einsum]. *)
  Definition parse_string (s1 : pystr) (ops1 : list (arr K)) : result (pystr * pystr * list (arr K)) :=
    if (memb ch_minus s1 || memb ch_gt s1) &&
       negb ((count s1 ch_minus <=? 1)%nat && (count s1 ch_gt <=? 1)%nat && (count_arrow s1 =? 1)%nat)
    then Err ValueError else
    if memb ch_dot s1 then Err NotImplementedError else
    io <- match split_arrow s1 with
          | Some (i, o) => Ok (i, o)
          | None => o <- implicit_output s1 ;; Ok (s1, o)
          end ;;
    let (inp, out) := (io : pystr * pystr) in
    if forallb (fun c => count out c =? 1)%nat out && forallb (fun c => memb c inp) out
    then Ok (inp, out, ops1) else Err ValueError.

  (** einsumfunc.py:92-110: [einsum(a, (0, 1), b, (1, 2), (0, 2))]: the operands, their integer lists and
      the optional list of the output.  Negative integers are not modelled. *)
  Definition parse_lists (subs : list (list nat)) (out : option (list nat)) (ops : list (arr K))
      : result (pystr * pystr * list (arr K)) :=
    gs <- mapM (mapM symbol) subs ;;
    match out with
    | None => parse_string (join_groups gs) ops
    | Some o => os <- mapM symbol o ;; parse_string (join_groups gs ++ ch_minus :: ch_gt :: os) ops
    end.

  (** einsumfunc.py:526-539: one contraction of the path, with the scale factors it uses. *)
  Definition contract_step (method : option nat) (inps : list pystr) (outs : pystr) (args : list (arr K))
      : result (arr K) :=
    match args, inps with
    | [a], [ia] => transpose_backend K ia outs a 1 0 None
    | [a; b], [ia; ib] =>
        match method with
        | None => contract_backend K ia ib outs a b 1 0 None
        | Some n => contract_ttgt K n false ia ib outs a b 1 0 None
        end
    | _, _ => np_einsum K inps outs args
    end.
  (** einsumfunc.py:515-541: the loop over the contractions; [res] is unbound before the first one. *)
  Fixpoint run_path (method : option nat) (trivial : bool) (path : list contraction) (args : list (arr K))
      (res : option (arr K)) : result (arr K) :=
    match path with
    | [] => match res with Some r => Ok r | None => Err NameError end
    | p :: path' =>
        q <- pops (c_inds p) args ;;
        if negb trivial then Err NotImplementedError else
        r <- contract_step method (c_inps p) (c_out p) (fst q) ;;
        run_path method trivial path' (snd q ++ [r]) (Some r)
    end.
  (** einsumfunc.py:486-541 after parsing. *)
  Definition einsum_parsed (method : option nat) (beta_is_one trivial : bool) (path : list contraction)
      (p : pystr * pystr * list (arr K)) (alpha beta : K) (out : option (arr K)) : result (arr K) :=
    match p with
    | (inp, outs, args) =>
        match args, split_comma inp with
        | [], _ => Err ValueError
        | [a], [ia] => transpose_backend K ia outs a alpha beta out
        | [a; b], [ia; ib] =>
            match method with
            | None => contract_backend K ia ib outs a b alpha beta out
            | Some n => contract_ttgt K n beta_is_one ia ib outs a b alpha beta out
            end
        | _ :: _ :: _ :: _, _ => run_path method trivial path args None
        | _, _ => Err ValueError
        end
    end.
  (** einsumfunc.py:456-541 [einsum] with a string, and with lists of integers. *)
  Definition einsum_str (method : option nat) (beta_is_one trivial : bool) (path : list contraction) (sub : pystr)
      (ops : list (arr K)) (alpha beta : K) (out : option (arr K)) : result (arr K) :=
    p <- parse_einsum K sub ops ;; einsum_parsed method beta_is_one trivial path p alpha beta out.
  Definition einsum_lists (method : option nat) (beta_is_one trivial : bool) (path : list contraction)
      (subs : list (list nat)) (ol : option (list nat)) (ops : list (arr K)) (alpha beta : K) (out : option (arr K))
      : result (arr K) :=
    p <- parse_lists subs ol ops ;; einsum_parsed method beta_is_one trivial path p alpha beta out.
End Scalars.
