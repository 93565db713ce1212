(** Nested contexts behave lexically. *)
From Verif Require Import Base Alg ArrModel SpaceModel AnsatzModel VecModel CcModel CcSpec ExtModel ExtSpec.
Set Implicit Arguments.
Local Open Scope nat_scope.
Local Open Scope list_scope.

Lemma nth_error_set {A} i j (c : A) l : i < length l ->
  nth_error (firstn i l ++ c :: skipn (S i) l) j = if j =? i then Some c else nth_error l j.
Proof.
  revert i j; induction l as [|x l IH]; intros i j H; cbn in H; [lia|].
  destruct i as [|i]; [destruct j; reflexivity|]. destruct j as [|j]; [reflexivity|]. cbn. apply IH. lia.
Qed.

Section Ctx.
  Variables (E N X : Type) (plain : update_fn E N) (set_active : N -> N -> result N) (add : N -> X -> result N)
    (corrections : part -> option E -> N -> result X) (external : N -> result (N * N)) (get_eris : result E) (complete : N -> N -> N)
    (objs : nat -> option (kind * N)).
  Notation wrapped := (wrapped set_active add corrections external get_eris complete objs).
  Notation lexical := (lexical set_active add corrections external get_eris complete objs).
  Notation call := (call plain set_active add corrections complete).
  Notation enter := (enter corrections external get_eris).
  Notation crun := (crun plain set_active add corrections external get_eris complete).
  Notation preserved := (preserved external objs).
  Notation well_nested := (well_nested external objs).
  Notation ctx := (ctx N X). Notation fn := (fn X).

  Definition agree (cs cs' : list ctx) (ids : list nat) : Prop := forall j, In j ids -> nth_error cs' j = nth_error cs j.
  (** [f] implements [u] through the contexts [ids]. *)
  Inductive chain (cs : list ctx) : list nat -> fn -> update_fn E N -> Prop :=
  | ch_plain : chain cs [] Plain plain
  | ch_tailor i ids active g u : nth_error cs i = Some (mkctx Tailor active (Some g)) -> chain cs ids g u -> ~ In i ids ->
      chain cs (i :: ids) (Wrap i None None) (fun e a => bind (u e a) (fun x => set_active x active))
  | ch_ignore i ids user g ext u : nth_error cs i = Some (mkctx (Correct Ignore) user (Some g)) -> chain cs ids g u -> ~ In i ids ->
      chain cs (i :: ids) (Wrap i (Some ext) None) (fun e a => bind (u e a) (fun x => add x ext))
  | ch_fixed i ids user g ext mix u : nth_error cs i = Some (mkctx (Correct Fixed) user (Some g)) -> chain cs ids g u -> ~ In i ids ->
      chain cs (i :: ids) (Wrap i (Some ext) (Some mix)) (fun e a => bind (u e a) (fun x => bind (add x ext) (fun y => add y mix)))
  | ch_update i ids user g ext mix u : nth_error cs i = Some (mkctx (Correct Update) user (Some g)) -> chain cs ids g u -> ~ In i ids ->
      chain cs (i :: ids) (Wrap i (Some ext) (Some mix))
        (fun e a => match a with
                    | None => Err ValueError
                    | Some t => bind (corrections Mixed e (complete t user)) (fun mix => bind (u e a) (fun x => bind (add x ext) (fun y => add y mix)))
                    end).

  Lemma chain_agree cs cs' ids f u : chain cs ids f u -> agree cs cs' ids -> chain cs' ids f u.
  Proof.
    intros H; induction H; intros A; [constructor| | | |];
      (assert (Hi : nth_error cs' i = nth_error cs i) by (apply A; left; reflexivity)); rewrite H in Hi;
      assert (A' : agree cs cs' ids) by (intros j Hj; apply A; right; exact Hj); econstructor; eauto.
  Qed.
  Lemma chain_call cs ids f u : chain cs ids f u -> forall fuel e a, length ids < fuel -> call fuel cs f e a = u e a.
  Proof.
    intros H; induction H; intros fuel e a L; (destruct fuel as [|fuel]; [cbn in L; lia|]); cbn [ExtModel.call]; [reflexivity| | | |];
      rewrite H; cbn [c_old c_kind c_user]; (rewrite IHchain by (cbn [length] in L; lia)).
    - reflexivity.
    - cbn. destruct (u e a); [cbn|reflexivity]. destruct (add a0 ext); reflexivity.
    - cbn. reflexivity.
    - destruct a as [t|]; [|reflexivity]. destruct (corrections Mixed e (complete t user)); reflexivity.
  Qed.

  Definition kind_user (s : cstate N X) (j : nat) : option (kind * N) := option_map (fun c => (c_kind c, c_user c)) (nth_error (st_ctxs s) j).
  (** What running a program may change. *)
  Definition kept (ids into : list nat) (s s' : cstate N X) : Prop :=
    st_cur s' = st_cur s /\ agree (st_ctxs s) (st_ctxs s') ids /\
    (forall j, kind_user s' j = kind_user s j \/
       In j into /\ exists st user x user', objs j = Some (Correct st, user) /\ external user = Ok (x, user') /\ kind_user s' j = Some (Correct st, user')) /\
    (forall j c, nth_error (st_ctxs s) j = Some c -> c_old c = None -> exists c', nth_error (st_ctxs s') j = Some c' /\ c_old c' = None).

  Lemma kept_refl ids into s : kept ids into s s.
  Proof. split; [reflexivity|]. split; [intros j _; reflexivity|]. split; [intros j; left; reflexivity|]. intros j c H H'. exists c. auto. Qed.
  Lemma kept_more ids into into' s s' : kept ids into s s' -> incl into into' -> kept ids into' s s'.
  Proof.
    intros (C & A & K & O) I. repeat split; auto. intros j. destruct (K j) as [H|(Hj & H)]; [left; exact H|right]. split; [apply I, Hj|exact H].
  Qed.
  Lemma kept_trans ids into s s' s'' : kept ids into s s' -> kept ids into s' s'' -> kept ids into s s''.
  Proof.
    intros (C & A & K & O) (C' & A' & K' & O'). split; [congruence|]. split; [intros j Hj; rewrite (A' j Hj); apply A, Hj|]. split.
    - intros j. destruct (K' j) as [H|H]; [|right; exact H]. rewrite H. apply K.
    - intros j c H Hn. destruct (O j c H Hn) as (c1 & H1 & N1). exact (O' j c1 H1 N1).
  Qed.

  (** The contexts the program enters are as declared. *)
  Definition ready (p : cprog E N) (s : cstate N X) : Prop := forall j, In j (entered p) -> kind_user s j = objs j.
  Lemma ready_kept (l : list nat) ids into s s' : (forall j, In j l -> kind_user s j = objs j) -> kept ids into s s' ->
    (forall j, In j into -> In j l -> preserved j) -> forall j, In j l -> kind_user s' j = objs j.
  Proof.
    intros R (C & A & K & O) P j Hj. destruct (K j) as [H|(Hin & st & user & x & user' & Ho & He & H)]; [rewrite H; apply R, Hj|].
    specialize (P j Hin Hj). unfold ExtSpec.preserved in P. rewrite Ho in P. rewrite H, Ho, (P _ _ He). reflexivity.
  Qed.

  Lemma set_same i c (s : cstate N X) f : i < length (st_ctxs s) -> nth_error (st_ctxs (set_ctx i c s f)) i = Some c.
  Proof. intros H. unfold set_ctx. cbn [st_ctxs]. rewrite nth_error_set by exact H. rewrite Nat.eqb_refl. reflexivity. Qed.
  Lemma set_other i j c (s : cstate N X) f : i < length (st_ctxs s) -> j <> i -> nth_error (st_ctxs (set_ctx i c s f)) j = nth_error (st_ctxs s) j.
  Proof. intros H Hj. unfold set_ctx. cbn [st_ctxs]. rewrite nth_error_set by exact H. apply Nat.eqb_neq in Hj. rewrite Hj. reflexivity. Qed.

  (** Entering. *)
  Lemma enter_ok i s ids u : chain (st_ctxs s) ids (st_cur s) u -> ~ In i ids -> kind_user s i = objs i ->
    match wrapped i u with
    | Err er => enter i s = Err er
    | Ok u' => exists s1 f c, enter i s = Ok s1 /\ nth_error (st_ctxs s) i <> None /\ s1 = set_ctx i c s f /\ c_old c = Some (st_cur s) /\
        chain (st_ctxs s1) (i :: ids) (st_cur s1) u' /\
        (Some (c_kind c, c_user c) = objs i \/
         exists st user x user', objs i = Some (Correct st, user) /\ external user = Ok (x, user') /\ c_kind c = Correct st /\ c_user c = user')
    end.
  Proof.
    intros Ch Hi K. unfold ExtSpec.wrapped, ExtModel.enter. rewrite <- K. unfold kind_user.
    destruct (nth_error (st_ctxs s) i) as [c|] eqn:Hc; cbn [option_map]; [|reflexivity].
    assert (L : i < length (st_ctxs s)) by (apply nth_error_Some; congruence).
    assert (AG : forall c' f, agree (st_ctxs s) (st_ctxs (set_ctx i c' s f)) ids).
    { intros c' f j Hj. apply set_other; [exact L|]. intros ->. apply Hi, Hj. }
    destruct (c_kind c) as [|st] eqn:Hk.
    - eexists _, _, _. split; [reflexivity|]. split; [congruence|]. split; [reflexivity|]. split; [reflexivity|]. split; [|left; cbn; congruence].
      change (st_cur (set_ctx i (mkctx Tailor (c_user c) (Some (st_cur s))) s (Wrap i None None))) with (@Wrap X i None None).
      eapply ch_tailor; [apply set_same, L| |exact Hi]. eapply chain_agree; [exact Ch|apply AG].
    - destruct get_eris as [e|er] eqn:GE; cbn [bind]; [|reflexivity].
      destruct (external (c_user c)) as [[x user']|er] eqn:EX; cbn [bind fst snd]; [|reflexivity].
      destruct (corrections External (Some e) x) as [ext|er]; cbn [bind]; [|reflexivity].
      assert (KU : objs i = Some (Correct st, c_user c)) by (rewrite <- K; unfold kind_user; rewrite Hc; cbn; congruence).
      destruct st; cbn [bind].
      + destruct (corrections Mixed (Some e) x) as [mix|er]; cbn [bind]; [|reflexivity].
        eexists _, _, _. split; [reflexivity|]. split; [congruence|]. split; [reflexivity|]. split; [reflexivity|].
        split; [|right; exists Fixed, (c_user c), x, user'; auto].
        cbn [st_cur set_ctx]. eapply ch_fixed; [apply set_same, L| |exact Hi]. eapply chain_agree; [exact Ch|apply AG].
      + destruct (corrections Mixed (Some e) x) as [mix|er]; cbn [bind]; [|reflexivity].
        eexists _, _, _. split; [reflexivity|]. split; [congruence|]. split; [reflexivity|]. split; [reflexivity|].
        split; [|right; exists Update, (c_user c), x, user'; auto].
        cbn [st_cur set_ctx]. eapply ch_update; [apply set_same, L| |exact Hi]. eapply chain_agree; [exact Ch|apply AG].
      + eexists _, _, _. split; [reflexivity|]. split; [congruence|]. split; [reflexivity|]. split; [reflexivity|].
        split; [|right; exists Ignore, (c_user c), x, user'; auto].
        cbn [st_cur set_ctx]. eapply ch_ignore; [apply set_same, L| |exact Hi]. eapply chain_agree; [exact Ch|apply AG].
  Qed.

  Lemma crun_lexical : forall p s ids u fuel, chain (st_ctxs s) ids (st_cur s) u -> well_nested p -> ready p s ->
    (forall j, In j (entered p) -> ~ In j ids) -> length ids + depth p < fuel ->
    exists s', crun fuel p s = (fst (lexical p u), s', snd (lexical p u)) /\ kept ids (entered p) s s'.
  Proof.
    induction p as [|e a rest IH|i body IHb rest IHr| |body IHb rest IHr]; intros s ids u fuel Ch W R D L.
    - exists s. split; [reflexivity|apply kept_refl].
    - cbn [ExtModel.crun ExtSpec.lexical depth entered ExtSpec.well_nested] in *. rewrite (chain_call Ch) by lia.
      destruct (u e a) as [x|er]; [|exists s; split; [reflexivity|apply kept_refl]].
      destruct (IH s ids u fuel Ch W R D L) as (s' & -> & K). exists s'. destruct (lexical rest u) as [o b]. split; [reflexivity|exact K].
    - cbn [ExtModel.crun ExtSpec.lexical depth entered ExtSpec.well_nested] in *. destruct W as (Hib & Wb & Wr & P).
      assert (Hi : ~ In i ids) by (apply D; left; reflexivity).
      assert (Ki : kind_user s i = objs i) by (apply R; left; reflexivity).
      pose proof (@enter_ok i s ids u Ch Hi Ki) as En. destruct (wrapped i u) as [u'|er].
      2:{ rewrite En. exists s. split; [reflexivity|apply kept_refl]. }
      destruct En as (s1 & f & c & -> & Hn & Es1 & Eold & Ch1 & Ku).
      assert (Li : i < length (st_ctxs s)) by (apply nth_error_Some, Hn).
      assert (R1 : ready body s1).
      { intros j Hj. rewrite <- (R j) by (right; apply in_or_app; left; exact Hj). unfold kind_user. rewrite Es1, set_other; [reflexivity|exact Li|].
        intros ->. apply Hib, Hj. }
      destruct (IHb s1 (i :: ids) u' fuel Ch1 Wb R1) as (s2 & -> & K2).
      { intros j Hj [->|Hj']; [apply Hib, Hj|]. apply (D j); [right; apply in_or_app; left; exact Hj|exact Hj']. }
      { cbn [length]. lia. }
      destruct K2 as (C2 & A2 & KU2 & O2).
      assert (H1i : nth_error (st_ctxs s1) i = Some c) by (rewrite Es1; apply set_same, Li).
      assert (H2i : nth_error (st_ctxs s2) i = Some c) by (rewrite (A2 i) by (left; reflexivity); exact H1i).
      assert (L2 : i < length (st_ctxs s2)) by (apply nth_error_Some; congruence).
      assert (Lv : leave i s2 = Ok (set_ctx i (mkctx (c_kind c) (c_user c) None) s2 (st_cur s))).
      { unfold leave. rewrite H2i, Eold. reflexivity. }
      rewrite Lv. set (s3 := set_ctx i (mkctx (c_kind c) (c_user c) None) s2 (st_cur s)).
      assert (K3 : kept ids (i :: entered body) s s3).
      { split; [reflexivity|]. split; [|split].
        - intros j Hj. assert (Hji : j <> i) by (intros ->; apply Hi, Hj).
          unfold s3. rewrite set_other by assumption. rewrite (A2 j) by (right; exact Hj). rewrite Es1. apply set_other; assumption.
        - intros j. destruct (Nat.eq_dec j i) as [->|Hji].
          + assert (K3i : kind_user s3 i = Some (c_kind c, c_user c)) by (unfold kind_user, s3; rewrite set_same by exact L2; reflexivity).
            rewrite K3i. destruct Ku as [Ku|(st & user & x & user' & Ho & Hx & Hk & Hu)]; [left; congruence|]. right. split; [left; reflexivity|].
            exists st, user, x, user'. repeat split; auto. congruence.
          + assert (K3j : kind_user s3 j = kind_user s2 j) by (unfold kind_user, s3; rewrite set_other by assumption; reflexivity).
            assert (K1j : kind_user s1 j = kind_user s j) by (unfold kind_user; rewrite Es1, set_other by assumption; reflexivity).
            rewrite K3j. destruct (KU2 j) as [H|(Hin & H)]; [left; congruence|right]. split; [right; exact Hin|exact H].
        - intros j c0 H Hnone. destruct (Nat.eq_dec j i) as [->|Hji].
          + eexists. split; [unfold s3; apply set_same, L2|reflexivity].
          + unfold s3. rewrite set_other by assumption. apply (O2 j c0); [|exact Hnone]. rewrite Es1, set_other by assumption. exact H. }
      destruct (lexical body u') as [o b]. cbn [fst snd]. destruct b; [|exists s3; split; [reflexivity|]; eapply kept_more; [exact K3|]; intros j [->|Hj]; [left; reflexivity|right; apply in_or_app; left; exact Hj]].
      assert (Ch3 : chain (st_ctxs s3) ids (st_cur s3) u) by (eapply chain_agree; [exact Ch|apply K3]).
      assert (R3 : ready rest s3).
      { intros j Hj. eapply (@ready_kept (entered rest)); [|exact K3|exact P|exact Hj]. intros k Hk. apply R. right. apply in_or_app. right. exact Hk. }
      destruct (IHr s3 ids u fuel Ch3 Wr R3) as (s4 & -> & K4); [intros j Hj; apply D; right; apply in_or_app; right; exact Hj|lia|].
      exists s4. destruct (lexical rest u) as [o' b']. split; [reflexivity|]. cbn [fst snd].
      eapply kept_trans; [eapply kept_more; [exact K3|]|eapply kept_more; [exact K4|]]; intros j Hj; [destruct Hj as [->|Hj]; [left; reflexivity|]|]; right; apply in_or_app; auto.
    - exists s. split; [reflexivity|apply kept_refl].
    - cbn [ExtModel.crun ExtSpec.lexical depth entered ExtSpec.well_nested] in *. destruct W as (Wb & Wr & P).
      destruct (IHb s ids u fuel Ch Wb) as (s1 & -> & K1); [intros j Hj; apply R, in_or_app; left; exact Hj|intros j Hj; apply D, in_or_app; left; exact Hj|lia|].
      assert (Ch1 : chain (st_ctxs s1) ids (st_cur s1) u).
      { destruct K1 as (C1 & A1 & _). rewrite C1. eapply chain_agree; [exact Ch|exact A1]. }
      assert (R1 : ready rest s1).
      { intros j Hj. eapply (@ready_kept (entered rest)); [|exact K1|exact P|exact Hj]. intros k Hk. apply R, in_or_app. right. exact Hk. }
      destruct (IHr s1 ids u fuel Ch1 Wr R1) as (s2 & -> & K2); [intros j Hj; apply D, in_or_app; right; exact Hj|lia|].
      exists s2. destruct (lexical body u) as [o b]. destruct (lexical rest u) as [o' b']. split; [reflexivity|].
      eapply kept_trans; [eapply kept_more; [exact K1|]|eapply kept_more; [exact K2|]]; intros j Hj; apply in_or_app; auto.
  Qed.

  (** A program run on a calculation with unused contexts. *)
  Definition start (l : list (kind * N)) : cstate N X := mkst Plain (map (fun ku => mkctx (fst ku) (snd ku) None) l).
End Ctx.

Lemma program_lexical : forall (E N X : Type) (plain : update_fn E N) set_active (add : N -> X -> result N) corrections external get_eris complete
    (l : list (kind * N)) (p : cprog E N) fuel,
  well_nested external (nth_error l) p -> (forall i, In i (entered p) -> i < length l) -> depth p < fuel ->
  exists s, crun plain set_active add corrections external get_eris complete fuel p (start X l) =
      (fst (lexical set_active add corrections external get_eris complete (nth_error l) p plain), s,
       snd (lexical set_active add corrections external get_eris complete (nth_error l) p plain)) /\
    st_cur s = Plain /\ map (fun c => c_old c) (st_ctxs s) = map (fun _ => None) l.
Proof.
  intros E N X plain set_active add corrections external get_eris complete l p fuel W Hl D.
  assert (KU : forall j, kind_user (start X l) j = nth_error l j).
  { intros j. unfold kind_user, start. cbn [st_ctxs]. rewrite nth_error_map. destruct (nth_error l j) as [[k n]|]; reflexivity. }
  destruct (@crun_lexical E N X plain set_active add corrections external get_eris complete (nth_error l) p (start X l) [] plain fuel)
    as (s & -> & C & _ & K & O).
  - constructor.
  - exact W.
  - intros j _. apply KU.
  - intros j _ [].
  - exact D.
  - exists s. split; [reflexivity|]. split; [exact C|].
    assert (NE : forall j, nth_error (map (fun c => c_old c) (st_ctxs s)) j = nth_error (map (fun _ => @None (fn X)) l) j).
    { intros j. rewrite !nth_error_map. destruct (nth_error l j) as [[k n]|] eqn:Ej; cbn.
      - destruct (O j (mkctx k n None)) as (c' & -> & Hc); [unfold start; cbn [st_ctxs]; rewrite nth_error_map, Ej; reflexivity|reflexivity|]. cbn. rewrite Hc. reflexivity.
      - destruct (K j) as [H|(Hj & _)]; [|exfalso; apply Hl in Hj; apply nth_error_Some in Hj; congruence].
        rewrite KU, Ej in H. unfold kind_user in H. destruct (nth_error (st_ctxs s) j); [discriminate|reflexivity]. }
    clear - NE. revert NE. generalize (map (fun c => c_old c) (st_ctxs s)) (map (fun _ => @None (fn X)) l).
    intros a b. revert b. induction a as [|x a IH]; intros [|y b] H; [reflexivity|specialize (H 0); discriminate|specialize (H 0); discriminate|].
    f_equal; [specialize (H 0); cbn in H; congruence|]. apply IH. intros j. apply (H (S j)).
Qed.
