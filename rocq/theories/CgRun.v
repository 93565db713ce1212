(** Checking that a generated function runs, and that it leaves its arguments alone. *)
From Verif Require Import Base Alg ArrModel TensorModel EinsumModel EinPathModel CgModel CgSpec CgProofs.
From Verif Require Import KernelProofs.
From Coq Require Import ZArith Lia.
Set Implicit Arguments.

Definition unit_ops : dops := mkops (fun _ _ => Some tt) (fun _ _ _ => Some tt) (fun _ _ => Some tt) (fun _ => Some tt) (fun _ => Some tt).
Definition unit_dom (F : fld) (I : Type) (sz : I -> cls -> nat) : domain F sz unit_ops.
Proof. refine (@mkdom F I sz unit_ops (fun _ _ _ => True) _ _ _ _ _ _); intros; exact Logic.I. Defined.

(** Names a statement changes. *)
Definition changes (s : stmt) : ref := match s with Assign x _ | AddTo x _ | SubFrom x _ | Del x => x end.
Definition only_dels (s : stmt) : bool := match s with Del _ => true | _ => false end.
Fixpoint mark (ins : list (ref * list cls)) (m : pmap unit) : pmap unit :=
  match ins with [] => m | (x, _) :: ins' => mark ins' (pset x (Some tt) m) end.
Definition safe_stmt (m : pmap unit) (s : stmt) : bool :=
  match pget (changes s) m with Some _ => is_cached (changes s) && only_dels s | None => true end.
Definition check_run (p : prog) : bool :=
  match check unit_ops (init unit_ops (map (fun x => (fst x, (snd x, tt))) (p_in p)) PL) (p_body p) with
  | Some G => check_outs unit_ops (fun _ _ => true) G (p_out p) &&
      (let m := mark (p_in p) PL in forallb (safe_stmt m) (p_body p))
  | None => false
  end.

Section Sound.
  Variable F : fld.
  Variables (method : option nat) (path : list (list nat) -> list nat -> list (list nat) -> list contraction) (sz : cls -> nat).
  Local Open Scope py_scope.

  Lemma exec1_frame (e e' : env F) s x : exec1 method path sz e s = Ok e' -> x <> changes s -> e' x = e x.
  Proof.
    intros E N.
    assert (B : forall y v, x <> y -> bindv e y v x = e x).
    { intros y v H. unfold bindv. destruct (Pos.eqb_spec x y); [contradiction|reflexivity]. }
    destruct s as [y r|y r|y r|y]; cbn [exec1 changes] in *.
    - apply bind_ok in E as (a & _ & E). injection E as <-. apply B, N.
    - apply bind_ok in E as (b & _ & E). apply bind_ok in E as (a & _ & E). apply bind_ok in E as (c & _ & E). injection E as <-. apply B, N.
    - apply bind_ok in E as (b & _ & E). apply bind_ok in E as (a & _ & E). apply bind_ok in E as (c & _ & E). injection E as <-. apply B, N.
    - apply bind_ok in E as (b & _ & E). injection E as <-. apply B, N.
  Qed.
  Lemma exec_frame body x : forall (e e' : env F), exec method path sz e body = Ok e' -> ~ In x (map changes body) -> e' x = e x.
  Proof.
    induction body as [|s body IH]; intros e e' E N; cbn [exec] in E.
    - injection E as <-. reflexivity.
    - apply bind_ok in E as (e1 & E1 & E). cbn [map In] in N. rewrite (IH _ _ E) by tauto. apply (@exec1_frame _ _ _ _ E1). intros ->. tauto.
  Qed.
  Lemma mark_get ins x : forall m, pget x m <> None \/ In x (map fst ins) -> pget x (mark ins m) <> None.
  Proof.
    induction ins as [|[y cs] ins IH]; intros m; cbn [mark map In fst]; [tauto|]. intros H. apply IH. rewrite pget_set.
    destruct (Pos.eqb_spec x y) as [->|N]; [left; discriminate|]. destruct H as [H|[H|H]]; [left; exact H|congruence|right; exact H].
  Qed.

  Lemma outs_run (e' : env F) outs : (forall x cs, In (x, cs) outs -> exists a, e' x = Some a /\ of_kinds F sz cs a) ->
    exists vs, mapM (fun x => fetch e' (fst x)) outs = Ok vs /\ Forall2 (fun (o : ref * list cls) a => of_kinds F sz (snd o) a) outs vs.
  Proof.
    induction outs as [|[x cs] outs IH]; intros H; [exists []; split; [reflexivity|constructor]|].
    destruct IH as (vs & A & B); [intros y ds Hy; apply H; right; exact Hy|].
    destruct (H x cs) as (a & Ea & Ka); [left; reflexivity|].
    exists (a :: vs). cbn [mapM fst]. unfold fetch at 1. rewrite Ea. cbn [bind]. rewrite A. split; [reflexivity|constructor; assumption].
  Qed.

  Lemma body_runs ins body outs G : check unit_ops (init unit_ops (map (fun x => (fst x, (snd x, tt))) ins) PL) body = Some G ->
    check_outs unit_ops (fun _ _ => true) G outs = true ->
    forall e : env F, path_ok path -> args_ok sz ins e ->
    exists e', exec method path sz e body = Ok e' /\
      forall x cs, In (x, cs) outs -> exists a, e' x = Some a /\ of_kinds F sz cs a.
  Proof.
    intros E Eo e Hp Ha.
    destruct (@prog_ok F unit (fun _ => sz) unit_ops (@unit_dom F unit (fun _ => sz)) (fun _ => method) (fun _ => path) (fun _ => Hp)
                (map (fun x => (fst x, (snd x, tt))) ins) body outs (fun _ _ => true) G (fun _ => e)) as (e' & A & B).
    - intros x cs d Hx. apply in_map_iff in Hx as ([y cs'] & Ey & Hy). injection Ey as <- <- <-. split; [|exact Logic.I].
      intros _. apply (Ha y cs' Hy).
    - exact E.
    - exact Eo.
    - exists (e' tt). split; [apply (A tt)|]. intros x cs Hx. destruct (B x cs Hx) as [B1 _]. apply (B1 tt).
  Qed.

  Theorem check_run_sound p : check_run p = true -> forall e : env F, path_ok path -> args_ok sz (p_in p) e ->
    exists e' vs, exec method path sz e (p_body p) = Ok e' /\ run method path sz p e = Ok vs /\
      Forall2 (fun (o : ref * list cls) a => of_kinds F sz (snd o) a) (p_out p) vs /\
      (forall x cs, In (x, cs) (p_in p) -> e' x = e x \/ is_cached x = true /\ In (Del x) (p_body p)).
  Proof.
    unfold check_run. destruct (check unit_ops _ _) as [G|] eqn:E; [|discriminate]. intros H. apply andb_prop in H as [Eo Es].
    intros e Hp Ha. destruct (@body_runs _ _ _ _ E Eo e Hp Ha) as (e' & A & B). destruct (@outs_run e' (p_out p) B) as (vs & C & D).
    exists e', vs. split; [exact A|]. split; [unfold run; rewrite A; cbn [bind]; exact C|]. split; [exact D|].
    intros x cs Hx. destruct (in_dec Pos.eq_dec x (map changes (p_body p))) as [Hc|Hc]; [|left; apply (@exec_frame _ _ _ _ A Hc)].
    apply in_map_iff in Hc as (s & Es' & Hs). rewrite forallb_forall in Es. specialize (Es s Hs). unfold safe_stmt in Es. rewrite Es' in Es.
    destruct (pget x (mark (p_in p) PL)) as [u|] eqn:Eu.
    - apply andb_prop in Es as [E1 E2]. right. split; [exact E1|]. destruct s; cbn in E2, Es'; try discriminate. subst. exact Hs.
    - exfalso. refine (mark_get (p_in p) x PL _ Eu). right. change x with (fst (x, cs)). apply in_map, Hx.
  Qed.
End Sound.

(** Several functions at once. *)
Lemma check_all_sound {A} (l : list (A * prog)) : forallb (fun q => check_run (snd q)) l = true ->
  forall n p, In (n, p) l -> check_run p = true.
Proof. intros H n p Hp. rewrite forallb_forall in H. apply (H _ Hp). Qed.

(** A function whose last statement reads a name which is not there. *)
Lemma fails_at_end (F : fld) method path sz ins body x y G : 
  check unit_ops (init unit_ops (map (fun x => (fst x, (snd x, tt))) ins) PL) body = Some G ->
  existsb (Pos.eqb y) (map changes body) = false ->
  forall outs (e : env F), path_ok path -> args_ok sz ins e -> e y = None ->
    run method path sz (mkprog ins (body ++ [Assign x (Plain (Copy y))]) outs) e = Err NameError.
Proof.
  intros E Ny outs e Hp Ha Hy. destruct (@body_runs F method path sz ins body [] G E eq_refl e Hp Ha) as (e' & A & _).
  assert (Ny' : ~ In y (map changes body)).
  { intros H. assert (existsb (Pos.eqb y) (map changes body) = true); [|congruence]. apply existsb_exists. exists y. split; [exact H|apply Pos.eqb_refl]. }
  assert (A' : forall b (e1 e2 : env F) c, exec method path sz e1 b = Ok e2 -> exec method path sz e1 (b ++ c) = exec method path sz e2 c).
  { induction b as [|s b IH]; intros e1 e2 c H; cbn [exec app] in *; [injection H as <-; reflexivity|].
    apply bind_ok in H as (e3 & H1 & H2). rewrite H1. cbn [bind]. apply IH, H2. }
  unfold run. cbn [p_body p_out]. rewrite (A' _ _ _ _ A). cbn [exec exec1 eval_expr eval_rhs]. unfold fetch at 1.
  rewrite (@exec_frame F method path sz body y e e' A Ny'), Hy. reflexivity.
Qed.
