(** The part of a program on which given results depend. *)
From Coq Require Import List PArith Lia.
From Verif Require Import Base Alg ArrModel EinsumModel TensorModel CgModel CgSpec CgFormSpec CgRelSpec CgRun.
Import ListNotations.
Set Implicit Arguments.
Local Open Scope list_scope.

Definition uses_rhs (r : rhs) : list ref := match r with Einsum fs _ => map fst fs | Transpose x _ => [x] | Copy x => [x] | _ => [] end.
Definition uses (e : expr) : list ref := match e with Plain r => uses_rhs r | Times r _ _ => uses_rhs r end.
Definition rmem (x : ref) (l : list ref) : bool := existsb (Pos.eqb x) l.
Definition join (l m : list ref) : list ref := fold_right (fun x m => if rmem x m then m else x :: m) m l.
(** The statements needed for the names [live] after [body], and the names they read. *)
Fixpoint slice (live : list ref) (body : list stmt) : list stmt * list ref :=
  match body with
  | [] => ([], live)
  | s :: body' => let '(b, l) := slice live body' in
    match s with
    | Assign x e => if rmem x l then (s :: b, join (uses e) l) else (b, l)
    | AddTo x e | SubFrom x e => if rmem x l then (s :: b, join (uses e) l) else (b, l)
    | Del x => if rmem x l then (s :: b, l) else (b, l)
    end
  end.
Definition sliced (p : prog) (xs : list ref) : prog := mkprog (p_in p) (fst (slice xs (p_body p))) (filter (fun o => rmem (fst o) xs) (p_out p)).

Lemma rmem_iff x l : rmem x l = true <-> In x l.
Proof. unfold rmem. rewrite existsb_exists. split; [intros (y & H & E); apply Pos.eqb_eq in E; subst; exact H|intros H; exists x; split; [exact H|apply Pos.eqb_refl]]. Qed.
Lemma join_in x l m : In x (join l m) <-> In x l \/ In x m.
Proof.
  induction l as [|y l IH]; cbn [join fold_right]; [cbn; tauto|]. change (fold_right _ m l) with (join l m). destruct (rmem y (join l m)) eqn:E; cbn [In].
  - apply rmem_iff in E. rewrite IH in *. split; [tauto|]. intros [[->|H]|H]; tauto.
  - rewrite IH. tauto.
Qed.

Section Slice.
  Variable F : fld.
  Variable method : option nat.
  Variable path : list (list nat) -> list nat -> list (list nat) -> list EinPathModel.contraction.
  Variable sz : cls -> nat.
  Definition agree (l : list ref) (e e' : env F) : Prop := forall x, In x l -> e x = e' x.
  Lemma agree_fetch {l e e' x} : agree l e e' -> In x l -> fetch e' x = fetch e x.
  Proof. intros A H. unfold fetch. rewrite (A x H). reflexivity. Qed.
  Lemma rhs_agree r e e' : agree (uses_rhs r) e e' -> eval_rhs method path sz e' r = eval_rhs method path sz e r.
  Proof.
    destruct r as [fs out|x axes|x|cs|c]; cbn [uses_rhs eval_rhs]; intros A; try reflexivity.
    - assert (E : mapM (fun f : ref * list nat => fetch e' (fst f)) fs = mapM (fun f => fetch e (fst f)) fs); [|rewrite E; reflexivity].
      induction fs as [|f fs IH]; [reflexivity|]. cbn [mapM]. rewrite (agree_fetch A) by (left; reflexivity). rewrite IH; [reflexivity|]. intros x H. apply A. right. exact H.
    - rewrite (agree_fetch A) by (left; reflexivity). reflexivity.
    - apply (agree_fetch A). left. reflexivity.
  Qed.
  Lemma expr_agree r e e' : agree (uses r) e e' -> eval_expr method path sz e' r = eval_expr method path sz e r.
  Proof. destruct r; cbn [uses eval_expr]; intros A; rewrite (rhs_agree _ A); reflexivity. Qed.
  Lemma agree_bind l e e' x v : agree l e e' -> agree l (bindv e x v) (bindv e' x v).
  Proof. intros A y H. unfold bindv. destruct (Pos.eqb y x); [reflexivity|apply A, H]. Qed.
  Lemma agree_other l (e : env F) e' x v : agree l e e' -> ~ In x l -> agree l (bindv e x v) e'.
  Proof. intros A N y H. unfold bindv. destruct (Pos.eqb_spec y x) as [->|]; [contradiction|apply A, H]. Qed.

  Lemma slice_exec live body : forall e e' e1, agree (snd (slice live body)) e e' -> exec method path sz e body = Ok e1 ->
    exists e1', exec method path sz e' (fst (slice live body)) = Ok e1' /\ agree live e1 e1'.
  Proof.
    induction body as [|s body IH]; intros e e' e1 A E; cbn [slice exec] in *; [injection E as <-; exists e'; split; [reflexivity|exact A]|].
    destruct (slice live body) as [b l] eqn:Eb. cbn [fst snd] in IH.
    destruct (exec1 method path sz e s) as [e2|] eqn:E1; [|discriminate]. cbn [bind] in E.
    assert (K : forall s', s' = s -> agree l e2 e' -> exists e1', exec method path sz e' b = Ok e1' /\ agree live e1 e1') by (intros s' _ H; apply (IH e2 e' e1 H E)).
    destruct s as [x r|x r|x r|x]; cbn [exec1] in E1; destruct (rmem x l) eqn:M; cbn [fst snd] in *.
    - destruct (eval_expr method path sz e r) as [a|] eqn:Ea; [|discriminate]. cbn [bind] in E1. injection E1 as <-. cbn [exec exec1]. rewrite (expr_agree r (e := e)), Ea by (intros y H; apply A, join_in; left; exact H).
      cbn [bind]. apply (IH _ _ _ (agree_bind x (Some a) (fun y H => A y (proj2 (join_in y (uses r) l) (or_intror H)))) E).
    - destruct (eval_expr method path sz e r) as [a|] eqn:Ea; [|discriminate]. cbn [bind] in E1. injection E1 as <-. apply (K _ eq_refl). apply agree_other; [exact A|]. intros H. apply rmem_iff in H. congruence.
    - assert (Hx : In x (join (uses r) l)) by (apply join_in; right; apply rmem_iff, M). cbn [exec exec1]. rewrite (agree_fetch A Hx). destruct (fetch e x) as [v|]; [|discriminate]. cbn [bind] in *.
      rewrite (expr_agree r (e := e)) by (intros y H; apply A, join_in; left; exact H). destruct (eval_expr method path sz e r) as [a|] eqn:Ea; [|discriminate]. cbn [bind] in *.
      destruct (arr_addM F v a) as [c|]; [|discriminate]. cbn [bind] in *. injection E1 as <-. apply (IH _ _ _ (agree_bind x (Some c) (fun y H => A y (proj2 (join_in y (uses r) l) (or_intror H)))) E).
    - destruct (fetch e x) as [v|]; [|discriminate]. cbn [bind] in *. destruct (eval_expr method path sz e r) as [a|] eqn:Ea; [|discriminate]. cbn [bind] in *.
      destruct (arr_addM F v a) as [c|]; [|discriminate]. cbn [bind] in *. injection E1 as <-. apply (K _ eq_refl). apply agree_other; [exact A|]. intros H. apply rmem_iff in H. congruence.
    - assert (Hx : In x (join (uses r) l)) by (apply join_in; right; apply rmem_iff, M). cbn [exec exec1]. rewrite (agree_fetch A Hx). destruct (fetch e x) as [v|]; [|discriminate]. cbn [bind] in *.
      rewrite (expr_agree r (e := e)) by (intros y H; apply A, join_in; left; exact H). destruct (eval_expr method path sz e r) as [a|] eqn:Ea; [|discriminate]. cbn [bind] in *.
      destruct (arr_addM F v _) as [c|]; [|discriminate]. cbn [bind] in *. injection E1 as <-. apply (IH _ _ _ (agree_bind x (Some c) (fun y H => A y (proj2 (join_in y (uses r) l) (or_intror H)))) E).
    - destruct (fetch e x) as [v|]; [|discriminate]. cbn [bind] in *. destruct (eval_expr method path sz e r) as [a|] eqn:Ea; [|discriminate]. cbn [bind] in *.
      destruct (arr_addM F v _) as [c|]; [|discriminate]. cbn [bind] in *. injection E1 as <-. apply (K _ eq_refl). apply agree_other; [exact A|]. intros H. apply rmem_iff in H. congruence.
    - cbn [exec exec1]. rewrite (agree_fetch A (proj1 (rmem_iff x l) M)). destruct (fetch e x) as [v|]; [|discriminate]. cbn [bind] in *. injection E1 as <-. apply (IH _ _ _ (agree_bind x None A) E).
    - destruct (fetch e x) as [v|]; [|discriminate]. cbn [bind] in *. injection E1 as <-. apply (K _ eq_refl). apply agree_other; [exact A|]. intros H. apply rmem_iff in H. congruence.
  Qed.
  Lemma sliced_outs xs (e1 e1' : env F) : agree xs e1 e1' -> forall outs rs, mapM (fun o : ref * list cls => fetch e1 (fst o)) outs = Ok rs ->
    exists rs', mapM (fun o : ref * list cls => fetch e1' (fst o)) (filter (fun o => rmem (fst o) xs) outs) = Ok rs' /\
      forall x, In x xs -> results F (filter (fun o => rmem (fst o) xs) outs) rs' x = results F outs rs x.
  Proof.
    intros A. induction outs as [|[y cs] outs IH]; intros rs E; cbn [mapM filter fst] in *; [injection E as <-; exists []; split; reflexivity|].
    destruct (fetch e1 y) as [v|] eqn:Ev; [|discriminate]. cbn [bind] in E. destruct (mapM _ outs) as [vs|] eqn:Es; [|discriminate]. cbn [bind] in E. injection E as <-.
    destruct (IH vs eq_refl) as (rs' & E' & R). destruct (rmem y xs) eqn:M.
    - exists (v :: rs'). cbn [mapM fst]. rewrite (agree_fetch A) by (apply rmem_iff, M). rewrite Ev. cbn [bind]. rewrite E'. cbn [bind]. split; [reflexivity|]. intros x Hx. cbn [results]. unfold bindv. rewrite (R x Hx). reflexivity.
    - exists rs'. split; [exact E'|]. intros x Hx. cbn [results]. unfold bindv. rewrite (R x Hx). destruct (Pos.eqb_spec x y) as [->|]; [|reflexivity]. apply rmem_iff in Hx. congruence.
  Qed.
  Lemma sliced_run p xs (e : env F) rs : run method path sz p e = Ok rs ->
    exists rs', run method path sz (sliced p xs) e = Ok rs' /\ forall x, In x xs -> results F (p_out (sliced p xs)) rs' x = results F (p_out p) rs x.
  Proof.
    unfold run. destruct (exec method path sz e (p_body p)) as [e1|] eqn:E; [|discriminate]. cbn [bind]. intros R.
    destruct (@slice_exec xs (p_body p) e e e1) as (e1' & E' & A); [intros x _; reflexivity|exact E|]. cbn [sliced p_body p_out]. rewrite E'. cbn [bind]. apply (sliced_outs A _ R).
  Qed.
End Slice.
