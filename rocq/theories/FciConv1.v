(** Calls of the generated conversions with namespaces. *)
From Coq Require Import String ZArith Lia.
From Verif Require Import Base Alg ArrModel ArrProofs PermModel TensorModel EinsumModel EinPathModel SpaceModel AnsatzModel VecModel ListAux CcModel CcThms CgModel CgSpec CgFormSpec CgNames CgRun CgRelSpec CgLagSpec CgCompare CgCompareProofs FciModel FciConvModel.
Set Implicit Arguments.
Local Open Scope list_scope.
Local Open Scope nat_scope.

Definition named (names : list pystr) (x : ref) : bool :=
  match name_of x with Some (n, _) => if in_dec pystr_eq_dec n names then true else false | None => false end.
Definition hasb (A : table) (x : ref) (pat : list cls) : bool :=
  existsb (fun q => Pos.eqb x (fst q) && (if list_eq_dec Nat.eq_dec (map kind (fst (snd q))) pat then true else false)) A.
Lemma lookup_app A B x pat : CgFormSpec.lookup (A ++ B) x pat = if hasb A x pat then CgFormSpec.lookup A x pat else CgFormSpec.lookup B x pat.
Proof.
  induction A as [|[y [o f]] A IH]; cbn [app CgFormSpec.lookup hasb existsb fst snd]; [reflexivity|].
  destruct (Pos.eqb x y); cbn [andb orb]; [|exact IH]. destruct (list_eq_dec _ _ _); [reflexivity|exact IH].
Qed.

Section Conv.
  Variable F : fld.
  Local Notation amps_t := (dict pystr (tval F)).

  Lemma arguments_set n v (d : amps_t) x : arguments F (dset pystr_eq_dec n v d) x =
    match name_of x with Some (m, s) => if pystr_eq_dec m n then select F v s else arguments F d x | None => None end.
  Proof. unfold arguments. destruct (name_of x) as [[m s]|]; [|reflexivity]. rewrite dget_dset. destruct (pystr_eq_dec m n); reflexivity. Qed.
  Lemma arguments_get (d e : amps_t) n : dget pystr_eq_dec n d = dget pystr_eq_dec n e -> forall x s, name_of x = Some (n, s) -> arguments F d x = arguments F e x.
  Proof. intros H x s E. unfold arguments. rewrite E, H. reflexivity. Qed.

  Lemma passing_ok (c : amps_t) : forall names d, (forall n, In n names -> dget pystr_eq_dec n c <> None) ->
    exists d', passing F c names d = Ok d' /\
      (forall n, dget pystr_eq_dec n d' = if in_dec pystr_eq_dec n names then dget pystr_eq_dec n c else dget pystr_eq_dec n d) /\
      forall x, arguments F d' x = if named names x then arguments F c x else arguments F d x.
  Proof.
    intros names d H.
    assert (G : exists d', passing F c names d = Ok d' /\ forall n, dget pystr_eq_dec n d' = if in_dec pystr_eq_dec n names then dget pystr_eq_dec n c else dget pystr_eq_dec n d).
    { revert d. induction names as [|n names IH]; intros d; [exists d; split; [reflexivity|intros n; reflexivity]|].
      unfold passing in *. cbn [foldM]. unfold CcModel.lookup at 1. destruct (dget pystr_eq_dec n c) as [v|] eqn:E; [|destruct (H n); [left; reflexivity|exact E]].
      cbn [bind]. destruct (IH (fun k Hk => H k (or_intror Hk)) (dset pystr_eq_dec n v d)) as (d' & A & B). exists d'. split; [exact A|].
      intros k. rewrite B. rewrite dget_dset. destruct (in_dec pystr_eq_dec k names) as [I|I]; destruct (in_dec pystr_eq_dec k (n :: names)) as [J|J]; cbn in J; try tauto.
      - destruct (pystr_eq_dec k n) as [->|N]; [symmetry; exact E|destruct J as [<-|J]; [congruence|tauto]].
      - destruct (pystr_eq_dec k n) as [->|N]; [tauto|reflexivity]. }
    destruct G as (d' & A & B). exists d'. split; [exact A|]. split; [exact B|]. intros x. unfold named, arguments. destruct (name_of x) as [[n s]|]; [|reflexivity].
    rewrite B. destruct (in_dec pystr_eq_dec n names); reflexivity.
  Qed.

  Variable method : option nat.
  Variable path : list (list nat) -> list nat -> list (list nat) -> list contraction.
  Variable sz : cls -> nat.
  Variable eB : env F.
  Variable split : cls -> list cls.
  (** The namespace holds the array that the table gives. *)
  Definition good (T : table) (d : amps_t) (xc : ref * list cls) : Prop :=
    exists a, arguments F d (fst xc) = Some a /\ of_kinds F sz (snd xc) a /\ given_by sz split T eB (fst xc) (snd xc) (aget r0 a).
  Lemma good_args T T' d d' xc : arguments F d' (fst xc) = arguments F d (fst xc) ->
    (forall pat, In pat (patterns split (snd xc)) -> CgFormSpec.lookup T' (fst xc) pat = CgFormSpec.lookup T (fst xc) pat) -> good T d xc -> good T' d' xc.
  Proof. intros E L (a & A & K & G). exists a. rewrite E. split; [exact A|]. split; [exact K|]. intros pat idx Hp Hi. rewrite (L pat Hp). apply G; assumption. Qed.

  Definition names_ok (p : prog) : Prop := forall rs : list (arr F), length rs = length (p_out p) -> forall k x, nth_error (map fst (p_out p)) k = Some x ->
    arguments F (fold_left (@add_result F) (combine (map fst (p_out p)) rs) []) x = nth_error rs k.

  Hypothesis H0 : characteristic_zero F.
  Hypothesis Hsp : splits sz split.
  Hypothesis HP : path_ok path.

  Lemma call_ok B S T p Tout d : computes B S split T p Tout = true -> check_run p = true -> names_ok p -> symmetric sz S B eB ->
    (forall xc, In xc (p_in p) -> good T d xc) -> exists r, call F method path sz p d = Ok r /\ forall xc, In xc (p_out p) -> good Tout r xc.
  Proof.
    intros C R N HS HD.
    assert (A : args_ok sz (p_in p) (arguments F d)).
    { intros x cs Hx. destruct (HD _ Hx) as (a & E & K & _). exists a. split; assumption. }
    destruct (@computes_sound B S split T p Tout C F sz H0 Hsp method path HP eB (arguments F d) HS A) as (r & Er & G).
    { intros x cs Hx. destruct (HD _ Hx) as (a & E & K & Gi). cbn [fst snd] in *. rewrite E. exact Gi. }
    destruct (@check_run_sound F method path sz p R (arguments F d) HP A) as (e' & vs & _ & Ev & KF & _).
    assert (vs = r) by congruence. subst vs. unfold call. rewrite Er. cbn [bind]. eexists. split; [reflexivity|].
    intros [x cs] Hx. destruct (In_nth_error _ _ Hx) as [k Hk]. assert (L : length r = length (p_out p)) by (clear - KF; induction KF; cbn; congruence).
    assert (Hn : nth_error (map fst (p_out p)) k = Some x) by (rewrite nth_error_map, Hk; reflexivity).
    unfold good. cbn [fst snd]. rewrite (N r L k x Hn).
    destruct (nth_error r k) as [a|] eqn:Ea; [|apply nth_error_None in Ea; assert (k < length (p_out p)) by (apply nth_error_Some; congruence); lia].
    exists a. split; [reflexivity|]. split.
    - clear - KF Hk Ea. revert k Hk Ea. induction KF; intros [|k] Hk Ea; try discriminate; cbn in *; [injection Hk as ->; injection Ea as ->; assumption|eauto].
    - specialize (G k x cs Hk). unfold entry in G. rewrite Ea in G. exact G.
  Qed.

  Lemma good_dget T d x cs n s : good T d (x, cs) -> name_of x = Some (n, s) -> dget pystr_eq_dec n d <> None.
  Proof. intros (a & E & _) N. cbn [fst] in E. unfold arguments in E. rewrite N in E. destruct (dget _ n d); [discriminate|congruence]. Qed.

  (** One order of a conversion. *)
  Lemma convert_step B S T p Tout cnames tnames camps amps : computes B S split T p Tout = true -> check_run p = true -> names_ok p -> symmetric sz S B eB ->
    (forall n, In n cnames -> dget pystr_eq_dec n camps <> None) ->
    (forall xc, In xc (p_in p) -> good T (if named cnames (fst xc) then camps else amps) xc) ->
    (forall n, In n tnames -> exists x cs s, In (x, cs) (p_out p) /\ name_of x = Some (n, s)) ->
    exists d r amps', passing F camps cnames amps = Ok d /\ call F method path sz p d = Ok r /\ take_from F r tnames amps = Ok amps' /\
      (forall x, named tnames x = false -> arguments F amps' x = arguments F amps x) /\
      forall xc, In xc (p_out p) -> named tnames (fst xc) = true -> good Tout amps' xc.
  Proof.
    intros C R N HS Hc Hi Hn. destruct (passing_ok camps cnames amps Hc) as (d & Ed & _ & Ad).
    destruct (@call_ok B S T p Tout d C R N HS) as (r & Er & Gr).
    { intros xc Hx. specialize (Hi xc Hx). eapply good_args; [|reflexivity|exact Hi]. rewrite Ad. destruct (named cnames (fst xc)); reflexivity. }
    destruct (passing_ok r tnames amps) as (amps' & Ea & _ & Aa).
    { intros n H. destruct (Hn n H) as (x & cs & s & Hx & E). apply (good_dget (Gr _ Hx) E). }
    exists d, r, amps'. split; [exact Ed|]. split; [exact Er|]. split; [exact Ea|]. split.
    - intros x E. rewrite Aa, E. reflexivity.
    - intros xc Hx E. eapply good_args; [|reflexivity|exact (Gr xc Hx)]. rewrite Aa, E. reflexivity.
  Qed.
End Conv.
