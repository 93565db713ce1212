(** A concrete call of a generated function. *)
From Verif Require Import Base Alg ArrModel EinsumModel EinsumSpec EinPathModel EinPathSpec EinPathParse CgModel CgSpec CgNames Cg_RMP2.
From Coq Require Import ZArith QArith Qcanon.
Local Open Scope nat_scope.
Set Implicit Arguments.

Definition ex_path (subs : list (list nat)) (out : list nat) (_ : list (list nat)) : list contraction :=
  [mkcon (map (fun _ => 0) subs) (map (map letter_of) subs) (map letter_of out)].
Lemma ex_path_ok : path_ok ex_path.
Proof.
  intros subs out shps. unfold ex_path. rewrite <- (map_map (map letter_of) (fun _ => 0) subs). apply naive_path.
Qed.
(** One occupied and two virtual orbitals. *)
Definition ex_sz (c : cls) : nat := match c with 0 => 1 | _ => 2 end.
Definition ex_t2 : arr Qc_fld := mkarr [1; 1; 2; 2] (map (fun z => Q2Qc (inject_Z z)) [1; 2; 3; 4]%Z).
Definition ex_v : arr Qc_fld := mkarr [1; 2; 1; 2] (map (fun z => Q2Qc (inject_Z z)) [5; 6; 7; 8]%Z).
Definition ex_env : env Qc_fld := fun x => if Pos.eqb x n_t2 then Some ex_t2 else if Pos.eqb x n_v'ovov then Some ex_v else None.
Lemma ex_args : args_ok ex_sz (p_in RMP2_energy) ex_env.
Proof.
  intros x cs [H|[H|[]]]; injection H as <- <-; eexists; (split; [reflexivity|]); split; reflexivity.
Qed.
(** 2 (1*5 + 2*6 + 3*7 + 4*8) - (1*5 + 2*7 + 3*6 + 4*8) = 71. *)
Lemma ex_run : match run None ex_path ex_sz RMP2_energy ex_env with
  | Ok [a] => match dat a with [x] => andb (Qeq_bool (this x) (inject_Z 71)) true | _ => false end | _ => false end = true.
Proof. vm_compute. reflexivity. Qed.

(** Rotating the virtual orbitals by a quarter turn and changing the sign of the occupied one. *)
From Coq Require Import Lia.
From Verif Require Import ArrProofs.
Definition ex_U (c : cls) (i j : nat) : Qc_fld :=
  let z n : Qc_fld := Q2Qc (inject_Z n) in
  match c with
  | 0 => z (-1)%Z
  | _ => match i, j with 0, 1 => z 1%Z | 1, 0 => z (-1)%Z | _, _ => z 0%Z end
  end.
Lemma ex_U_orthogonal : orthogonal Qc_fld ex_sz ex_U.
Proof.
  intros c i j Hi Hj. destruct c as [|c]; cbn [ex_sz] in *.
  - assert (i = 0) by lia. assert (j = 0) by lia. subst. split; apply Qc_is_canon; reflexivity.
  - assert (Hi' : i = 0 \/ i = 1) by lia. assert (Hj' : j = 0 \/ j = 1) by lia.
    destruct Hi' as [-> | ->], Hj' as [-> | ->]; split; apply Qc_is_canon; reflexivity.
Qed.
Definition ex_rot (cs : list cls) (a : arr Qc_fld) : arr Qc_fld := tab (map ex_sz cs) (rotated Qc_fld ex_sz ex_U cs (aget r0 a)).
Definition ex_env' : env Qc_fld := fun x =>
  if Pos.eqb x n_t2 then Some (ex_rot [0; 0; 1; 1] ex_t2) else if Pos.eqb x n_v'ovov then Some (ex_rot [0; 1; 0; 1] ex_v) else None.
Lemma ex_args' : args_ok ex_sz (p_in RMP2_energy) ex_env'.
Proof. intros x cs [H|[H|[]]]; injection H as <- <-; eexists; (split; [reflexivity|]); split; try apply tab_wf; reflexivity. Qed.
Lemma ex_rotated x cs : In (x, cs) (p_in RMP2_energy) -> forall idx, inb (map ex_sz cs) idx ->
  tens Qc_fld (ex_env' x) idx = rotated Qc_fld ex_sz ex_U cs (tens Qc_fld (ex_env x)) idx.
Proof.
  intros [H|[H|[]]] idx Hi; injection H as <- <-.
  - exact (@aget_tab Qc_fld r0 (map ex_sz [0; 0; 1; 1]) (rotated Qc_fld ex_sz ex_U [0; 0; 1; 1] (aget r0 ex_t2)) idx Hi).
  - exact (@aget_tab Qc_fld r0 (map ex_sz [0; 1; 0; 1]) (rotated Qc_fld ex_sz ex_U [0; 1; 0; 1] (aget r0 ex_v)) idx Hi).
Qed.
