(** A system that consists of two parts which do not interact. *)
From Coq Require Import List ZArith.
From Verif Require Import Base Alg ArrModel EinsumModel CgModel CgSpec CgFormSpec CgNames CgTables CgTables2 CgRelSpec.
Import ListNotations.
Local Open Scope nat_scope.

(** Kinds of orbitals of the parts: those of the first part have numbers from 20 (occupied 20, virtual 21, ...), those of the
    second from 40.  The orbitals of the whole are those of the first part and then those of the second. *)
Definition part (s : bool) (c : cls) : cls := if c <? 20 then c + (if s then 40 else 20) else c.
Definition two_parts (c : cls) : list cls := if c <? 20 then [part false c; part true c] else [c].
Definition part_label (s : bool) (l : nat) : nat := part s (kind l) * 10 + l mod 10.

(** Tensors of the parts: the tensor [x] of the first part is called [xO x], that of the second [xI x]. *)
Definition part_name (s : bool) (x : ref) : ref := if s then xI x else xO x.
Definition of_part (s : bool) (B : list (ref * list cls)) : list (ref * list cls) := map (fun t => (part_name s (fst t), map (part s) (snd t))) B.
Definition both (B : list (ref * list cls)) : list (ref * list cls) := of_part false B ++ of_part true B.
Definition both_symmetries (S : symmetries) : symmetries := map (fun t => (part_name false (fst t), snd t)) S ++ map (fun t => (part_name true (fst t), snd t)) S.

(** The arguments of a calculation of one part: the table [T] for the tensors of that part. *)
Definition part_table (s : bool) (T : table) : table :=
  map (fun r => (fst r, (map (part_label s) (fst (snd r)),
    map (fun m : monomial => (fst m, map (fun f => (part_name s (fst f), map (part_label s) (snd f))) (snd m))) (snd (snd r))))) T.
(** Those of a calculation of the whole: the blocks of the first part and of the second; all other blocks are zero. *)
Definition whole_table (T : table) : table := part_table false T ++ part_table true T.

(** Results of the whole: energies are sums, other results have the blocks of the parts; the blocks with
    indices of both parts are zero.  [nm 1] are the results of the first part, [nm 2] those of the second. *)
Definition sum_of_parts (outs : list (ref * list nat)) : table :=
  flat_map (fun r => match snd r with
    | [] => [(fst r, ([], [mono 1 1 [(nm 1 (fst r), [])]; mono 1 1 [(nm 2 (fst r), [])]]))]
    | ls => [(fst r, (map (part_label false) ls, [mono 1 1 [(nm 1 (fst r), map (part_label false) ls)]]));
             (fst r, (map (part_label true) ls, [mono 1 1 [(nm 2 (fst r), map (part_label true) ls)]]))]
    end) outs.
(** Names and indices of the results, from the tables of results. *)
Definition names_of (T : table) : list (ref * list nat) := map (fun r => (fst r, fst (snd r))) T.

(** Size-extensivity of a function whose arguments are given by the table [T] and whose results are those of [R]: for
    two parts of any sizes with any tensors [eB], calls for the parts ([e1] and [e2]) and for the whole ([e]) succeed,
    and the results of the whole are the sums, or the blocks, of the results of the parts. *)
Definition size_extensive (B : list (ref * list cls)) (S : symmetries) (T R : table) (p : prog) : Prop :=
  forall (F : fld) sz, characteristic_zero F -> splits sz two_parts ->
  forall method1 method2 path1 path2, path_ok path1 -> path_ok path2 ->
  forall eB e1 e2 e : env F, symmetric sz (both_symmetries S) (both B) eB ->
  args_ok (fun c => sz (part false c)) (p_in p) e1 -> (forall x cs, In (x, cs) (p_in p) -> given_by sz id_blocks (part_table false T) eB x (map (part false) cs) (tens F (e1 x))) ->
  args_ok (fun c => sz (part true c)) (p_in p) e2 -> (forall x cs, In (x, cs) (p_in p) -> given_by sz id_blocks (part_table true T) eB x (map (part true) cs) (tens F (e2 x))) ->
  args_ok sz (p_in p) e -> (forall x cs, In (x, cs) (p_in p) -> given_by sz two_parts (whole_table T) eB x cs (tens F (e x))) ->
  exists r1 r2 r, run method1 path1 (fun c => sz (part false c)) p e1 = Ok r1 /\ run method1 path1 (fun c => sz (part true c)) p e2 = Ok r2 /\
    run method2 path2 sz p e = Ok r /\
    forall k x cs, nth_error (p_out p) k = Some (x, cs) ->
      given_by sz two_parts (sum_of_parts (names_of R)) (together [eB; results F (p_out p) r1; results F (p_out p) r2]) x cs (entry F r k).
