(** The amplitudes that [from_rebcc] makes are those of table [closed_shell]. *)
From Coq Require Import String.
From Coq Require Import Permutation Ring Field List.
From Verif Require Import Base Alg ArrModel PermModel TensorModel AnsatzModel AnsatzSpec AnsatzProofs AnsatzRanks ConvModel ConvSpec ListAux ArrProofs VecThms ConvProofs ConvThms ConvNames
  EinsumModel CgModel CgSpec CgFormSpec CgNames CgTables CgPairs CgAgree.
Set Implicit Arguments.
Local Open Scope list_scope. Local Open Scope py_scope. Local Open Scope string_scope.

Lemma dget_in' {A} k (d : dict pystr A) v : dget pystr_eq_dec k d = Some v -> In (k, v) d.
Proof. apply DampProofs.dget_in. Qed.

Section Res.
  Variable F : fld.
  Local Open Scope rng_scope.
  Add Field FfieldConvRes : (fth F) (abstract).
  Hypothesis zero : characteristic_zero F.

  Lemma from_rebcc_inv lams a (amps : dict pystr (arr F)) u name w : singles_doubles a -> from_rebcc F lams a amps = Ok u -> In (name, w) u ->
    (name = fname lams (str "t1") /\ exists tn bs, dget pystr_eq_dec name amps = Some tn /\ spin_blocks_of F (str "ov") 1 tn = Ok bs /\ w = Spin F bs) \/
    (name = fname lams (str "t2") /\ exists tn bs, dget pystr_eq_dec name amps = Some tn /\ spin_blocks_of F (str "oovv") 2 tn = Ok bs /\ w = Spin F bs) \/
    (exists r tn, name = bname lams (str "s" ++ r)%list /\ dget pystr_eq_dec name amps = Some tn /\ w = Whole F tn) \/
    (exists r tn, name = bname lams (str "u" ++ r)%list /\ dget pystr_eq_dec name amps = Some tn /\ w = Spin F [(str "bb", tn); (str "aa", tn)]).
  Proof.
    intros (fr & br0 & Efr & Hfr & _ & _ & Hrank & _) H Hin. unfold from_rebcc in H. rewrite Efr in H. cbn [bind] in H.
    match type of H with context [mapM ?f fr] => destruct (mapM f fr) as [fs|] eqn:E1 end; [|discriminate]. cbn [bind] in H.
    destruct (bosonic_cluster_ranks a Wt) as [br|] eqn:Ebr; [|discriminate]. cbn [bind] in H.
    match type of H with context [mapM ?f br] => destruct (mapM f br) as [bs|] eqn:E2 end; [|discriminate]. cbn [bind] in H.
    destruct (coupling_cluster_ranks a Wt) as [cr|] eqn:Ecr; [|discriminate]. cbn [bind] in H.
    match type of H with context [mapM ?f cr] => destruct (mapM f cr) as [cs|] eqn:E3 end; [|discriminate]. cbn [bind] in H. injection H as <-.
    apply mapM_F2 in E1. apply mapM_F2 in E2. apply mapM_F2 in E3.
    rewrite !in_app_iff in Hin. destruct Hin as [Hin|[Hin|Hin]].
    - destruct (F2_in_r _ E1 Hin) as ([[n k] r] & He & Hy). clear E1 E2 E3.
      assert (T : name = fname lams n /\ exists tn bs, dget pystr_eq_dec name amps = Some tn /\ spin_blocks_of F k r tn = Ok bs /\ w = Spin F bs).
      { destruct (negb lams && (3 <? r)%nat); [discriminate|]. unfold lookup_amp in Hy. destruct (dget pystr_eq_dec (fname lams n) amps) as [tn|] eqn:D; [|discriminate]. cbn [bind] in Hy.
        destruct (spin_blocks_of F k r tn) as [b|] eqn:B; [|discriminate]. cbn [bind] in Hy. injection Hy as <- <-. split; [reflexivity|]. exists tn, b. auto. }
      destruct T as (En & Ex). clear Hy.
      destruct (Hfr _ He) as [E|[E|[]]]; injection E as <- <- <-; [left|right; left]; split; assumption.
    - destruct (F2_in_r _ E2 Hin) as ([[n k] r] & He & Hy). clear E1 E2 E3. right. right. left.
      unfold lookup_amp in Hy. destruct (dget pystr_eq_dec (bname lams n) amps) as [tn|] eqn:D; [|discriminate]. cbn [bind] in Hy. injection Hy as <- <-.
      destruct (boson_wf _ _ Ebr) as (_ & _ & W). destruct (W _ _ _ He) as (-> & _). exists (dec r), tn. auto.
    - destruct (F2_in_r _ E3 Hin) as ([[[n k] i] j] & He & Hy). clear E1 E2 E3. right. right. right.
      unfold lookup_amp in Hy. destruct (dget pystr_eq_dec (bname lams n) amps) as [tn|] eqn:D; [|discriminate]. cbn [bind] in Hy. injection Hy as <- <-.
      destruct (coupling_wf a (w := Wt) (or_introl eq_refl)) as (cr' & Ecr' & _ & W & _). rewrite Ecr in Ecr'. injection Ecr' as <-.
      destruct (W _ _ _ _ He) as (Hi & _ & -> & _). assert (i = 1%nat) by lia. subst i. exists (dec 1 ++ dec j)%list, tn. split; [reflexivity|]. split; [exact D|]. reflexivity.
  Qed.

  (** The arrays of a converted calculation. *)
  Definition expected (comb : option string) (tn v : arr F) : Prop :=
    match comb with
    | Some c => if String.eqb c "aa" || String.eqb c "bb" then v = tn else
                exists bs, spin_blocks_of F (str "oovv") 2 tn = Ok bs /\ dget pystr_eq_dec (str c) bs = Some v
    | None => v = tn
    end.

  Ltac pairs lams Hx En Hv := destruct lams; cbv [block_names In] in Hx;
    repeat (destruct Hx as [Hx|Hx]; [injection Hx as <- <- <-; first [discriminate En|discriminate Hv|cbv in Hv; injection Hv as <-; reflexivity]|]); destruct Hx.
  Lemma from_rebcc_amplitude lams a amps u x name comb v : singles_doubles a -> from_rebcc F lams a amps = Ok u ->
    In (x, (name, comb)) (block_names lams) -> amplitude u name comb = Some v ->
    (forall tn, dget pystr_eq_dec (fname lams (str "t1")) amps = Some tn -> wf tn /\ exists n m, shp tn = [n; m]) ->
    exists tn, dget pystr_eq_dec (str name) amps = Some tn /\ expected comb tn v.
  Proof.
    intros Hsd Hu Hx Hv Hs. unfold amplitude in Hv. destruct (dget pystr_eq_dec (str name) u) as [w|] eqn:D; [|discriminate].
    apply dget_in' in D. destruct (@from_rebcc_inv lams a amps u _ _ Hsd Hu D) as [(En & tn & bs & Dt & Hbs & ->)|[(En & tn & bs & Dt & Hbs & ->)|[(r & tn & En & Dt & ->)|(r & tn & En & Dt & ->)]]].
    - exists tn. split; [exact Dt|]. rewrite En in Dt. destruct (Hs _ Dt) as (W & n & m & S). rewrite (@blocks_singles F tn n m W S) in Hbs. injection Hbs as <-. pairs lams Hx En Hv.
    - exists tn. split; [exact Dt|]. destruct lams; cbv [block_names In] in Hx;
      repeat (destruct Hx as [Hx|Hx]; [injection Hx as <- <- <-; first [discriminate En|discriminate Hv|exists bs; split; [exact Hbs|exact Hv]]|]); destruct Hx.
    - exists tn. split; [exact Dt|]. pairs lams Hx En Hv.
    - exists tn. split; [exact Dt|]. pairs lams Hx En Hv.
  Qed.

  Lemma two : (1 + 1 : F) <> 0.
  Proof. intros E. apply (zero 1%nat). cbn [rnat]. etransitivity; [|exact E]. ring. Qed.
  Lemma one : (1 : F) <> 0.
  Proof. exact (F_1_neq_0 (fth F)). Qed.
  Lemma rZ_1 : (rZ 1 : F) = 1.
  Proof. transitivity (1 + 0 : F); [reflexivity|ring]. Qed.
  Lemma rZ_2 : (rZ 2 : F) = 1 + 1.
  Proof. transitivity (1 + (1 + 0) : F); [reflexivity|ring]. Qed.
  Lemma rZ_m1 : (rZ (-1) : F) = - (1).
  Proof. transitivity (- (1 + 0) : F); [reflexivity|ring]. Qed.
  Lemma coef_1_1 : coef F 1 1 = 1.
  Proof. unfold coef. rewrite rZ_1. field. exact one. Qed.
  Lemma coef_1_2 : coef F 1 2 = half F.
  Proof. unfold coef. rewrite rZ_1, rZ_2. reflexivity. Qed.
  Lemma coef_m1_2 : coef F (-1) 2 = - half F.
  Proof. unfold coef, half. rewrite rZ_m1, rZ_2. field. exact two. Qed.

  (** Kinds of the indices of the amplitudes. *)
  Definition kinds_of (x : ref) : option (list cls) := match filter (fun r => Pos.eqb x (fst r)) spin_blocks with (_, cs) :: _ => Some cs | [] => None end.

  Lemma inb1 n1 idx : inb [n1] idx -> exists i, idx = [i].
  Proof. intros H. inversion H as [|? ? ? ? _ H1]; subst. inversion H1; subst. eauto. Qed.
  Lemma inb3 n1 n2 n3 idx : inb [n1; n2; n3] idx -> exists i j k, idx = [i; j; k].
  Proof. intros H. inversion H as [|? ? ? ? _ H1]; subst. apply inb2 in H1 as (? & ? & ->). eauto. Qed.

  Lemma inb4' n1 n2 n3 n4 idx : inb [n1; n2; n3; n4] idx -> exists i j k l, idx = [i; j; k; l] /\ (i < n1 /\ j < n2 /\ k < n3 /\ l < n4)%nat.
  Proof. intros H. destruct (inb4 H) as (i & j & k & l & ->). exists i, j, k, l. 
    inversion H as [|? ? ? ? L1 H1]; subst. inversion H1 as [|? ? ? ? L2 H2]; subst. inversion H2 as [|? ? ? ? L3 H3]; subst. inversion H3 as [|? ? ? ? L4 H4]; subst. auto.
  Qed.

  Lemma doubles_block tn n m c v bs : wf tn -> shp tn = [n; n; m; m] -> (forall i j a b, (i < n)%nat -> (j < n)%nat -> (a < m)%nat -> (b < m)%nat -> aget r0 tn [j; i; b; a] = aget r0 tn [i; j; a; b]) ->
    spin_blocks_of F (str "oovv") 2 tn = Ok bs -> dget pystr_eq_dec (str c) bs = Some v ->
    (c = "abab" -> v = tn) /\
    (c = "aaaa" \/ c = "bbbb" -> forall i j a b, (i < n)%nat -> (j < n)%nat -> (a < m)%nat -> (b < m)%nat -> aget r0 v [i; j; a; b] = half F * aget r0 tn [i; j; a; b] + - half F * aget r0 tn [i; j; b; a]).
  Proof.
    intros W S Sym Hb Hd. destruct (@blocks_doubles F two tn n m W S) as (x & X & Wx & Sx & Vx). rewrite X in Hb. injection Hb as <-. split.
    - intros ->. cbv in Hd. injection Hd as <-. reflexivity.
    - intros Hc. assert (v = x) as -> by (destruct Hc as [-> | ->]; cbv in Hd; injection Hd as <-; reflexivity).
      intros i j a b Hi Hj Ha Hb. rewrite Vx by assumption. unfold same_spin_doubles. rewrite (Sym i j a b Hi Hj Ha Hb), (Sym i j b a Hi Hj Hb Ha).
      assert (Q : half F * (1 + 1) = 1) by (unfold half; field; exact two).
      transitivity (half F * ((half F * (1 + 1)) * (aget r0 tn [i; j; a; b] + - aget r0 tn [i; j; b; a]))); [ring|rewrite Q; ring].
  Qed.
  Lemma doubles_table sz (eB : env F) y k1 k2 tn c v : In (y, [k1; k1; k2; k2]) spatial -> In (y, [([1; 0; 3; 2]%nat, false)]) spatial_symmetries ->
    symmetric sz spatial_symmetries spatial eB -> (forall x cs tn, In (x, cs) spatial -> eB x = Some tn -> of_kinds F sz cs tn) -> eB y = Some tn ->
    (exists bs, spin_blocks_of F (str "oovv") 2 tn = Ok bs /\ dget pystr_eq_dec (str c) bs = Some v) ->
    (c = "abab" -> v = tn) /\
    (c = "aaaa" \/ c = "bbbb" -> forall i j a b, (i < sz k1)%nat -> (j < sz k1)%nat -> (a < sz k2)%nat -> (b < sz k2)%nat ->
       aget r0 v [i; j; a; b] = half F * aget r0 tn [i; j; a; b] + - half F * aget r0 tn [i; j; b; a]).
  Proof.
    intros H1 H2 HS HK E (bs & Hb & Hd). destruct (HK _ _ _ H1 E) as (W & S). apply (@doubles_block tn _ _ c v bs W S); [|exact Hb|exact Hd].
    intros i j a b Hi Hj Ha Hb'. pose proof (HS _ _ _ [1; 0; 3; 2]%nat false H1 H2 (or_introl eq_refl) [i; j; a; b]) as Sym. rewrite E in Sym. apply Sym. repeat constructor; assumption.
  Qed.

  Lemma from_rebcc_given sz a amps u eB : splits sz closed_split -> singles_doubles a ->
    symmetric sz spatial_symmetries spatial eB -> restricted_amplitudes sz amps eB ->
    (forall lams, from_rebcc F lams a (amps lams) = Ok (u lams)) ->
    forall lams x name comb v cs, In (x, (name, comb)) (block_names lams) -> amplitude (u lams) name comb = Some v -> kinds_of x = Some cs ->
    given_by sz closed_split closed_shell eB x cs (tens F (Some v)).
  Proof.
    intros Hs Hsd HS (HB & HK) Hu lams x name comb v cs Hx Hv Hc.
    destruct (@from_rebcc_amplitude lams a (amps lams) (u lams) x name comb v Hsd (Hu lams) Hx Hv) as (tn & Dt & Ex).
    { intros tn Dt. destruct lams.
      - pose proof (HB true n_l1 "l1" ltac:(cbv; tauto)) as E. change (fname true (str "t1")) with (str "l1") in Dt. rewrite Dt in E.
        destruct (HK n_l1 [1; 0]%nat _ ltac:(cbv; tauto) E) as (W & S). split; [exact W|]. cbn in S. eauto.
      - pose proof (HB false n_t1 "t1" ltac:(cbv; tauto)) as E. change (fname false (str "t1")) with (str "t1") in Dt. rewrite Dt in E.
        destruct (HK n_t1 [0; 1]%nat _ ltac:(cbv; tauto) E) as (W & S). split; [exact W|]. cbn in S. eauto. }
    Ltac one l y nm inv := match goal with Hx : _ \/ _, Hc : kinds_of _ = Some _, Dt : dget _ _ _ = Some _, Ex : expected _ _ _, One : forall lams y nm, In (y, nm) (plain_names lams) -> _ |- _ =>
      destruct Hx as [Hx|Hx]; [injection Hx as <- <- <-; cbv in Hc; injection Hc as <-; let E := fresh "E" in pose proof (One l y nm ltac:(cbv; tauto) Dt) as E; cbv [expected] in Ex; cbn in Ex; subst;
        let pat := fresh in let idx := fresh in let Hp := fresh in let Hi := fresh in
        intros pat idx Hp Hi; cbn in Hp; destruct Hp as [<-|[]]; apply inv in Hi; decompose [ex] Hi; subst; cbn; rewrite E, coef_1_1; cbn; ring|] end.
    Ltac two_body l y nm k1 k2 fin := match goal with Hx : _ \/ _, Hc : kinds_of _ = Some _, Dt : dget _ _ _ = Some _, Ex : expected _ _ _, One : forall lams y nm, In (y, nm) (plain_names lams) -> _,
        HS : symmetric _ _ _ ?eB, HK : forall x cs tn, In (x, cs) spatial -> ?eB x = Some tn -> _ |- _ =>
      destruct Hx as [Hx|Hx]; [injection Hx as <- <- <-; cbv in Hc; injection Hc as <-;
        let E := fresh "E" in pose proof (One l y nm ltac:(cbv; tauto) Dt) as E;
        let D1 := fresh in let D2 := fresh in
        destruct (@doubles_table _ _ y k1 k2 _ _ _ ltac:(cbv; tauto) ltac:(cbv; tauto) HS HK E Ex) as (D1 & D2);
        let pat := fresh in let idx := fresh in let Hp := fresh in let Hi := fresh in
        intros pat idx Hp Hi; cbn in Hp; destruct Hp as [<-|[]]; apply inb4' in Hi; let i := fresh in let j := fresh in let a := fresh in let b := fresh in destruct Hi as (i & j & a & b & -> & Hi & ? & ? & ?);
        cbn; rewrite E; fin D1 D2|] end.
    Ltac same l y nm k1 k2 := two_body l y nm k1 k2 ltac:(fun D1 D2 => rewrite coef_1_2, coef_m1_2; cbn; rewrite D2 by first [assumption|left; reflexivity|right; reflexivity]; ring).
    Ltac other l y nm k1 k2 := two_body l y nm k1 k2 ltac:(fun D1 D2 => rewrite coef_1_1; cbn; rewrite D1 by reflexivity; ring).
    assert (One : forall lams y nm, In (y, nm) (plain_names lams) -> dget pystr_eq_dec (str nm) (amps lams) = Some tn -> eB y = Some tn).
    { intros l y nm Hy D. rewrite (HB _ _ _ Hy). exact D. }
    destruct lams; cbv [block_names In] in Hx.
    - one true n_l1 "l1" inb2. one true n_l1 "l1" inb2.
      same true n_l2 "l2" 1%nat 0%nat. other true n_l2 "l2" 1%nat 0%nat. same true n_l2 "l2" 1%nat 0%nat.
      one true n_ls1 "ls1" inb1. one true n_ls2 "ls2" inb2.
      one true n_lu11 "lu11" inb3. one true n_lu11 "lu11" inb3. one true n_lu12 "lu12" inb4. one true n_lu12 "lu12" inb4. destruct Hx.
    - one false n_t1 "t1" inb2. one false n_t1 "t1" inb2.
      same false n_t2 "t2" 0%nat 1%nat. other false n_t2 "t2" 0%nat 1%nat. same false n_t2 "t2" 0%nat 1%nat.
      one false n_s1 "s1" inb1. one false n_s2 "s2" inb2.
      one false n_u11 "u11" inb3. one false n_u11 "u11" inb3. one false n_u12 "u12" inb4. one false n_u12 "u12" inb4. destruct Hx.
  Qed.
End Res.
