(** Renaming the kinds of axes of a generated function. *)
From Coq Require Import List ZArith.
From Verif Require Import Base Alg ArrModel EinsumModel EinPathModel CgModel CgSpec CgFormSpec CgProofs.
Import ListNotations.
Set Implicit Arguments.
Local Open Scope nat_scope.

Section Rename.
  Variable rho : cls -> cls.
  Definition ren_rhs (r : rhs) : rhs :=
    match r with Zeros cs => Zeros (map rho cs) | Eye c => Eye (rho c) | _ => r end.
  Definition ren_expr (e : expr) : expr :=
    match e with Plain r => Plain (ren_rhs r) | Times r a d => Times (ren_rhs r) a d end.
  Definition ren_stmt (s : stmt) : stmt :=
    match s with Assign x e => Assign x (ren_expr e) | AddTo x e => AddTo x (ren_expr e) | SubFrom x e => SubFrom x (ren_expr e) | Del x => Del x end.
  Definition ren_list (l : list (ref * list cls)) : list (ref * list cls) := map (fun y => (fst y, map rho (snd y))) l.
  Definition ren (p : prog) : prog := mkprog (ren_list (p_in p)) (map ren_stmt (p_body p)) (ren_list (p_out p)).

  Variable F : fld.
  Variables (m : option nat) (path : list (list nat) -> list nat -> list (list nat) -> list contraction) (sz : cls -> nat).
  Local Notation sz' := (fun c => sz (rho c)).
  Lemma ren_eval_rhs (e : env F) r : eval_rhs m path sz e (ren_rhs r) = eval_rhs m path sz' e r.
  Proof. destruct r; cbn [ren_rhs eval_rhs]; try reflexivity. rewrite map_map. reflexivity. Qed.
  Lemma ren_eval_expr (e : env F) x : eval_expr m path sz e (ren_expr x) = eval_expr m path sz' e x.
  Proof. destruct x; cbn [ren_expr eval_expr]; rewrite ren_eval_rhs; reflexivity. Qed.
  Lemma ren_exec1 (e : env F) s : exec1 m path sz e (ren_stmt s) = exec1 m path sz' e s.
  Proof. destruct s; cbn [ren_stmt exec1]; try rewrite ren_eval_expr; reflexivity. Qed.
  Lemma ren_exec body : forall e : env F, exec m path sz e (map ren_stmt body) = exec m path sz' e body.
  Proof.
    induction body as [|s body IH]; intros e; cbn [map exec]; [reflexivity|]. rewrite ren_exec1.
    destruct (exec1 m path sz' e s); cbn [bind]; [apply IH|reflexivity].
  Qed.
  Lemma mapM_ren (f : ref -> result (arr F)) l : mapM (fun x : ref * list cls => f (fst x)) (ren_list l) = mapM (fun x => f (fst x)) l.
  Proof. induction l as [|x l IH]; cbn; [reflexivity|]. fold (ren_list l). rewrite IH. reflexivity. Qed.
  Lemma run_ren p (e : env F) : run m path sz (ren p) e = run m path sz' p e.
  Proof.
    unfold run. cbn [ren p_body p_out]. rewrite ren_exec. destruct (exec m path sz' e (p_body p)); cbn [bind]; [|reflexivity].
    apply (mapM_ren (fetch a)).
  Qed.
  Lemma ren_in p x cs : In (x, cs) (p_in p) -> In (x, map rho cs) (p_in (ren p)).
  Proof. intros H. cbn [ren p_in]. apply (in_map (fun y => (fst y, map rho (snd y)))) in H. exact H. Qed.
  Lemma in_ren p x ds : In (x, ds) (p_in (ren p)) -> exists cs, In (x, cs) (p_in p) /\ ds = map rho cs.
  Proof. cbn [ren p_in]. intros H. apply in_map_iff in H as ([y cs] & E & H). injection E as <- <-. exists cs. split; [exact H|reflexivity]. Qed.
  Lemma nth_out p k x cs : nth_error (p_out p) k = Some (x, cs) -> nth_error (p_out (ren p)) k = Some (x, map rho cs).
  Proof. intros H. cbn [ren p_out]. unfold ren_list. rewrite (map_nth_error _ _ _ H). reflexivity. Qed.
End Rename.
