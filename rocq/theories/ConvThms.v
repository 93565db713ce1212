(** Theorems about the conversion of amplitudes. *)
From Coq Require Import String.
From Coq Require Import Permutation Ring Field List.
From Verif Require Import Base Alg ArrModel PermModel TensorModel AnsatzModel ConvModel ConvSpec ListAux ArrProofs TensorSpec SymmProofs TensorThms ConvProofs GroupProofs.
Set Implicit Arguments.
Local Open Scope list_scope. Local Open Scope py_scope.

Lemma unperm_id m ks : length ks = m -> unperm (seq 0 m) ks = ks.
Proof.
  intros <-. apply nth_ext with (d := 0) (d' := 0); [rewrite unperm_length, seq_length; reflexivity|]. intros n Hn. rewrite unperm_length, seq_length in Hn.
  pose proof (@unperm_nth (seq 0 (List.length ks)) ks n) as H. rewrite seq_length, seq_nth in H by exact Hn. apply H; [apply Permutation_refl|exact Hn].
Qed.
Lemma gather_id (sh : list nat) : map (fun k => nth k sh 0) (seq 0 (length sh)) = sh.
Proof. apply nth_ext with (d := 0) (d' := 0); [rewrite map_length, seq_length; reflexivity|]. intros n Hn. rewrite map_length, seq_length in Hn. rewrite nth_map_seq by exact Hn. reflexivity. Qed.

Lemma inb2 n1 n2 idx : inb [n1; n2] idx -> exists i a, idx = [i; a].
Proof. intros H. inversion H as [|? ? ? ? _ H1]; subst. inversion H1 as [|? ? ? ? _ H2]; subst. inversion H2; subst. eauto. Qed.
Lemma inb4 n1 n2 n3 n4 idx : inb [n1; n2; n3; n4] idx -> exists i j a b, idx = [i; j; a; b].
Proof.
  intros H. inversion H as [|? ? ? ? _ H1]; subst. inversion H1 as [|? ? ? ? _ H2]; subst. inversion H2 as [|? ? ? ? _ H3]; subst.
  inversion H3 as [|? ? ? ? _ H4]; subst. inversion H4; subst. eauto 6.
Qed.

Section Thms.
  Variable F : fld.
  Local Open Scope rng_scope.
  Add Ring RringConv3 : (rth F).
  Variable slices : nat -> nat -> list nat.
  Variable size : nat -> nat.
  Variable nbos : nat.

  (** A block of an unrestricted calculation: bosonic axes, then one axis per spin of [c]. *)
  Definition block_shape (nb : nat) (c ks : pystr) : list nat := (repeat nbos nb ++ map (@length nat) (spin_mesh slices c ks))%list.

  Lemma lens_block nb key c : lens slices nbos nb key c = block_shape nb c (skipn nb key).
  Proof. unfold lens, mesh, block_shape. rewrite map_app. f_equal. clear. induction nb; cbn; [reflexivity|]. rewrite IHnb, seq_length. reflexivity. Qed.

  Lemma pick_bosons nb x m ks : inb (repeat nbos nb) x -> pick_mesh (repeat (seq 0 nbos) nb ++ m) (x ++ ks) = (x ++ pick_mesh m ks)%list.
  Proof.
    revert x. induction nb as [|nb IH]; intros x H; inversion H; subst; [reflexivity|]. cbn. rewrite seq_nth by assumption. cbn. f_equal. apply IH. assumption.
  Qed.

  Lemma sgn_1 : sgn F 1 = 1.
  Proof. transitivity (1 + 0 : F); [reflexivity|ring]. Qed.
  Lemma sgn_m1 : sgn F (-1) = - (1).
  Proof. transitivity (- (1 + 0) : F); [reflexivity|ring]. Qed.
  Lemma block_sum_nil s ks : block_sum F [] s ks = 0.
  Proof. reflexivity. Qed.
  Lemma block_sum_cons c f ts s ks : block_sum F ((c, f) :: ts) s ks = (if pystr_eq_dec c s then f ks else 0) + block_sum F ts s ks.
  Proof. reflexivity. Qed.
  Ltac sum_blocks := rewrite ?block_sum_cons, ?block_sum_nil;
    repeat match goal with |- context [if pystr_eq_dec ?c ?s then _ else _] =>
      let E := fresh in destruct (pystr_eq_dec c s) as [E|E]; [try discriminate E|try (exfalso; apply E; reflexivity)]; clear E end.

  Lemma singles_ok unique nb key k1 k2 blocks (aa bb : arr F) : skipn nb key = [k1; k2] -> alpha_beta slices size k1 -> alpha_beta slices size k2 ->
    dget pystr_eq_dec (str "aa") blocks = Some aa -> dget pystr_eq_dec (str "bb") blocks = Some bb -> wf aa -> wf bb ->
    shp aa = block_shape nb (str "aa") [k1; k2] -> shp bb = block_shape nb (str "bb") [k1; k2] ->
    exists r, general_amp F slices size nbos unique nb 1 key blocks = Ok r /\ wf r /\ shp r = (repeat nbos nb ++ [size k1; size k2])%list /\
      forall s t x i a, inb (repeat nbos nb) x -> (i < length (slices (spin_char s) k1))%nat -> (a < length (slices (spin_char t) k2))%nat ->
        aget r0 r (x ++ [spin_orbital_at slices s k1 i; spin_orbital_at slices t k2 a]) = general_singles F (aget r0 aa) (aget r0 bb) s t x i a.
  Proof.
    intros Ek P1 P2 Eaa Ebb Waa Wbb Saa Sbb.
    assert (Parts : Forall (alpha_beta slices size) (skipn nb key)) by (rewrite Ek; repeat constructor; assumption).
    assert (SS : forall c (u : arr F), shp u = block_shape nb c [k1; k2] -> length c = 2%nat -> length (shp u) = (nb + 2)%nat).
    { intros c u E L. rewrite E. unfold block_shape. rewrite app_length, repeat_length. destruct c as [|? [|? [|? ?]]]; try discriminate. reflexivity. }
    set (tss := fun comb : pystr => let u := if (hd 0 comb =? ch_a)%nat then aa else bb in
      [(comb, fun ks => aget r0 u (unperm (seq 0 (nb + 2)) (unperm (seq 0 (nb + 2)) ks)) * sgn F 1 * sgn F 1 * sgn F 1)]).
    assert (T : forall c : nat, (seq 0 nb ++ [nb + 0] ++ [0 + nb + 1])%nat = seq 0 (nb + 2) /\ (seq 0 nb ++ [nb + 0] ++ seq (nb + 1) 1)%nat = seq 0 (nb + 2) /\ c = c :> nat).
    { intros c. rewrite seq_app. cbn. rewrite Nat.add_0_r. replace (S nb) with (nb + 1)%nat by lia. auto. }
    assert (G : forall comb (u : arr F), comb = str "aa" \/ comb = str "bb" -> dget pystr_eq_dec comb blocks = Some u -> wf u -> shp u = block_shape nb comb [k1; k2] ->
      tss comb = [(comb, fun ks => aget r0 u (unperm (seq 0 (nb + 2)) (unperm (seq 0 (nb + 2)) ks)) * sgn F 1 * sgn F 1 * sgn F 1)] ->
      exists u ts, dget pystr_eq_dec comb blocks = Some u /\ wf u /\ block_terms nb 1 comb (all_pairs 1) [] = Ok ts /\
       Forall (fits slices nbos nb key (shp u)) ts /\ tss comb = map (term_value F u) ts /\
       (forall l p, In (l, p) (all_pairs 1) -> Permutation (seq 0 (length (shp u))) (seq 0 nb ++ map (Nat.add nb) (fst l) ++ map (fun q => q + nb + 1)%nat (fst p)))).
    { intros comb u Hc Eu Wu Su ET. exists u.
      exists [(comb, (seq 0 (nb + 2), seq 0 (nb + 2), (1, 1, 1)%Z))]. split; [exact Eu|]. split; [exact Wu|].
      destruct (T 0%nat) as (T1 & T2 & _). cbn [app] in T1, T2.
      split. { destruct Hc as [->| ->]; unfold block_terms, all_pairs, inner_terms; cbn -[seq Nat.add]; rewrite <- ?T1; cbn [app seq]; cbn; rewrite <- ?T2; cbn; reflexivity. }
      assert (LL : length comb = 2%nat) by (destruct Hc as [->| ->]; reflexivity). pose proof (SS _ _ Su LL) as LS.
      split. { constructor; [|constructor]. split; [|split; [|split]].
        - split; [rewrite Ek; exact LL|]. destruct Hc as [->| ->]; [constructor; [left; reflexivity|]; constructor; [left; reflexivity|constructor]|constructor; [right; reflexivity|]; constructor; [right; reflexivity|constructor]].
        - rewrite LS. apply Permutation_refl.
        - rewrite LS. apply Permutation_refl.
        - rewrite <- LS, gather_id. rewrite gather_id, lens_block, Ek. exact Su. }
      split; [exact ET|]. intros l p Hin. cbn in Hin. destruct Hin as [E|[]]. injection E as <- <-. cbn [fst map]. rewrite LS. cbn [app] . rewrite T1. apply Permutation_refl. }
    destruct (@blocks_ok F slices size nbos nb key Parts 1 blocks (generate_spin_combinations 1 false unique) (full (repeat nbos nb ++ map size (skipn nb key))%list r0) tss) as (r & Hr & W & HS & V).
    { intros comb Hc. assert (Hc' : comb = str "aa" \/ comb = str "bb"). { destruct unique; cbn in Hc; cbn; intuition. }
      destruct Hc' as [->| ->]; [apply (G (str "aa") aa)|apply (G (str "bb") bb)]; auto. }
    { apply full_wf. } { reflexivity. }
    exists r. split; [exact Hr|]. split; [exact W|]. split; [rewrite HS; unfold out_shape; rewrite Ek; reflexivity|].
    intros s t x i a Hx Hi Ha.
    specialize (V [spin_char s; spin_char t] (x ++ [i; a])).
    assert (Pt : pattern nb key [spin_char s; spin_char t]). { split; [rewrite Ek; reflexivity|]. destruct s, t; (constructor; [|constructor; [|constructor]]); first [left; reflexivity|right; reflexivity]. }
    assert (Ik : inb (lens slices nbos nb key [spin_char s; spin_char t]) (x ++ [i; a])).
    { rewrite lens_block, Ek. unfold block_shape. apply Forall2_app; [exact Hx|]. repeat constructor; assumption. }
    specialize (V Pt Ik). unfold mesh in V. rewrite Ek, pick_bosons in V by exact Hx.
    change (pick_mesh (spin_mesh slices [spin_char s; spin_char t] [k1; k2]) [i; a]) with [spin_orbital_at slices s k1 i; spin_orbital_at slices t k2 a] in V.
    rewrite V, aget_full. 
    assert (U : unperm (seq 0 (nb + 2)) (unperm (seq 0 (nb + 2)) (x ++ [i; a])) = (x ++ [i; a])%list).
    { assert (L : length (x ++ [i; a]) = (nb + 2)%nat). { rewrite app_length. apply inb_length in Hx. rewrite repeat_length in Hx. rewrite Hx. reflexivity. }
      rewrite !unperm_id; try exact L. reflexivity. rewrite unperm_id; exact L. }
    assert (C : flat_map tss (generate_spin_combinations 1 false unique) =
      if unique then [(str "bb", fun ks => aget r0 bb (unperm (seq 0 (nb + 2)) (unperm (seq 0 (nb + 2)) ks)) * sgn F 1 * sgn F 1 * sgn F 1);
                      (str "aa", fun ks => aget r0 aa (unperm (seq 0 (nb + 2)) (unperm (seq 0 (nb + 2)) ks)) * sgn F 1 * sgn F 1 * sgn F 1)]
      else [(str "aa", fun ks => aget r0 aa (unperm (seq 0 (nb + 2)) (unperm (seq 0 (nb + 2)) ks)) * sgn F 1 * sgn F 1 * sgn F 1);
            (str "bb", fun ks => aget r0 bb (unperm (seq 0 (nb + 2)) (unperm (seq 0 (nb + 2)) ks)) * sgn F 1 * sgn F 1 * sgn F 1)]) by (destruct unique; reflexivity).
    rewrite C. destruct unique, s, t; unfold general_singles; sum_blocks; cbv beta; rewrite ?U, ?sgn_1; ring.
  Qed.

  (** Doubles *)
  Definition id4 := [0; 1; 2; 3]%nat.
  Definition terms_aa (c : pystr) : list term := [(c, (id4, id4, (1, 1, 1)%Z)); (c, (id4, [1; 0; 2; 3]%nat, (1, 1, -1)%Z))].
  Definition terms_ab : list term :=
    [(str "abab", (id4, id4, (1, 1, 1)%Z)); (str "abba", ([0; 1; 3; 2]%nat, id4, (1, -1, 1)%Z));
     (str "baab", ([1; 0; 2; 3]%nat, id4, (-1, 1, 1)%Z)); (str "baba", ([1; 0; 3; 2]%nat, id4, (-1, -1, 1)%Z))].
  Lemma terms_aaaa : block_terms 0 2 (str "aaaa") (all_pairs 2) [] = Ok (terms_aa (str "aaaa")).
  Proof. reflexivity. Qed.
  Lemma terms_bbbb : block_terms 0 2 (str "bbbb") (all_pairs 2) [] = Ok (terms_aa (str "bbbb")).
  Proof. reflexivity. Qed.
  Lemma terms_abab : block_terms 0 2 (str "abab") (all_pairs 2) [] = Ok terms_ab.
  Proof. reflexivity. Qed.

  Lemma perm4 l : In l [[0; 1; 2; 3]; [1; 0; 2; 3]; [0; 1; 3; 2]; [1; 0; 3; 2]]%nat -> Permutation (seq 0 4) l.
  Proof.
    cbn [seq In]. intros H.
    assert (P1 : Permutation [0; 1; 2; 3]%nat [1; 0; 2; 3]%nat) by apply perm_swap.
    assert (P2 : Permutation [0; 1; 2; 3]%nat [0; 1; 3; 2]%nat) by (do 2 apply perm_skip; apply perm_swap).
    assert (P3 : Permutation [1; 0; 2; 3]%nat [1; 0; 3; 2]%nat) by (do 2 apply perm_skip; apply perm_swap).
    destruct H as [<-|[<-|[<-|[<-|[]]]]]; [reflexivity|exact P1|exact P2|exact (perm_trans P1 P3)].
  Qed.

  Ltac spin_pattern := repeat (constructor; [first [left; reflexivity|right; reflexivity]|]); constructor.
  Ltac fits4 := repeat (apply Forall_cons; [split; [split; [reflexivity|spin_pattern]|split; [apply perm4; cbn; tauto|split; [apply perm4; cbn; tauto|reflexivity]]]|]); apply Forall_nil.
  Lemma doubles_ok unique k1 k2 blocks (aaaa abab bbbb : arr F) : unique = true -> alpha_beta slices size k1 -> alpha_beta slices size k2 ->
    dget pystr_eq_dec (str "aaaa") blocks = Some aaaa -> dget pystr_eq_dec (str "abab") blocks = Some abab -> dget pystr_eq_dec (str "bbbb") blocks = Some bbbb ->
    wf aaaa -> wf abab -> wf bbbb ->
    shp aaaa = block_shape 0 (str "aaaa") [k1; k1; k2; k2] -> shp abab = block_shape 0 (str "abab") [k1; k1; k2; k2] -> shp bbbb = block_shape 0 (str "bbbb") [k1; k1; k2; k2] ->
    exists r, general_amp F slices size nbos unique 0 2 [k1; k1; k2; k2] blocks = Ok r /\ wf r /\ shp r = [size k1; size k1; size k2; size k2] /\
      forall s t u v i j a b, (i < length (slices (spin_char s) k1))%nat -> (j < length (slices (spin_char t) k1))%nat ->
        (a < length (slices (spin_char u) k2))%nat -> (b < length (slices (spin_char v) k2))%nat ->
        aget r0 r [spin_orbital_at slices s k1 i; spin_orbital_at slices t k1 j; spin_orbital_at slices u k2 a; spin_orbital_at slices v k2 b] =
        general_doubles F (aget r0 aaaa) (aget r0 abab) (aget r0 bbbb) s t u v i j a b.
  Proof.
    intros -> P1 P2 E1 E2 E3 W1 W2 W3 S1 S2 S3. set (key := [k1; k1; k2; k2]) in *.
    assert (Parts : Forall (alpha_beta slices size) (skipn 0 key)) by (repeat constructor; assumption).
    set (tss := fun comb : pystr =>
      if (nth 1 comb 0 =? ch_b)%nat then if (hd 0 comb =? ch_a)%nat then map (term_value F abab) terms_ab else map (term_value F bbbb) (terms_aa (str "bbbb"))
      else map (term_value F aaaa) (terms_aa (str "aaaa"))).
    assert (HP : forall (u : arr F), length (shp u) = 4%nat -> forall l p, In (l, p) (all_pairs 2) ->
      Permutation (seq 0 (length (shp u))) (seq 0 0 ++ map (Nat.add 0) (fst l) ++ map (fun q => q + 0 + 2)%nat (fst p))).
    { intros u Hu l p Hin. rewrite Hu. apply perm4. cbn in Hin. repeat (destruct Hin as [Hin|Hin]; [injection Hin as <- <-; cbn; tauto|]). destruct Hin. }
    destruct (@blocks_ok F slices size nbos 0 key Parts 2 blocks (generate_spin_combinations 2 false true) (full (repeat nbos 0 ++ map size (skipn 0 key))%list r0) tss) as (r & Hr & W & HS & V).
    { intros comb Hc. change (generate_spin_combinations 2 false true) with [str "aaaa"; str "abab"; str "bbbb"] in Hc.
      destruct Hc as [<-|[<-|[<-|[]]]].
      - exists aaaa, (terms_aa (str "aaaa")). split; [exact E1|]. split; [exact W1|]. split; [exact terms_aaaa|].
        split; [|split; [reflexivity|apply HP; rewrite S1; reflexivity]]. rewrite S1.
        fits4.
      - exists abab, terms_ab. split; [exact E2|]. split; [exact W2|]. split; [exact terms_abab|].
        split; [|split; [reflexivity|apply HP; rewrite S2; reflexivity]]. rewrite S2.
        fits4.
      - exists bbbb, (terms_aa (str "bbbb")). split; [exact E3|]. split; [exact W3|]. split; [exact terms_bbbb|].
        split; [|split; [reflexivity|apply HP; rewrite S3; reflexivity]]. rewrite S3.
        fits4. }
    { apply full_wf. } { reflexivity. }
    exists r. split; [exact Hr|]. split; [exact W|]. split; [exact HS|].
    intros s t u v i j a b Hi Hj Ha Hb.
    specialize (V [spin_char s; spin_char t; spin_char u; spin_char v] [i; j; a; b]).
    assert (Pt : pattern 0 key [spin_char s; spin_char t; spin_char u; spin_char v]).
    { split; [reflexivity|]. destruct s, t, u, v; spin_pattern. }
    assert (Ik : inb (lens slices nbos 0 key [spin_char s; spin_char t; spin_char u; spin_char v]) [i; j; a; b]).
    { rewrite lens_block. repeat constructor; assumption. }
    specialize (V Pt Ik).
    change (pick_mesh (mesh slices nbos 0 key [spin_char s; spin_char t; spin_char u; spin_char v]) [i; j; a; b]) with
      [spin_orbital_at slices s k1 i; spin_orbital_at slices t k1 j; spin_orbital_at slices u k2 a; spin_orbital_at slices v k2 b] in V.
    rewrite V, aget_full.
    change (flat_map tss (generate_spin_combinations 2 false true)) with
      (map (term_value F aaaa) (terms_aa (str "aaaa")) ++ map (term_value F abab) terms_ab ++ map (term_value F bbbb) (terms_aa (str "bbbb"))).
    unfold terms_aa, terms_ab. cbn [map app term_value].
    destruct s, t, u, v; unfold general_doubles; sum_blocks; cbv beta; unfold id4;
      repeat match goal with |- context [unperm ?p (unperm ?q ?l)] => let x := eval cbv in (unperm p (unperm q l)) in change (unperm p (unperm q l)) with x end;
      rewrite ?sgn_1, ?sgn_m1; ring.
  Qed.
End Thms.

(** * Restricted to unrestricted *)
Section Restricted.
  Variable F : fld.
  Local Open Scope rng_scope.
  Add Field FfieldConv : (fth F).
  Hypothesis two : radd r1 r1 <> @r0 F.

  Lemma quarter : half_pow 2 = half F * half F.
  Proof.
    assert (H : forall d : F, d <> 0 -> fdiv 1 (d * (d * 1)) = fdiv 1 d * fdiv 1 d) by (intros d Hd; field; exact Hd). exact (H _ two).
  Qed.

  Lemma symm_minus sub (t : arr F) : wf t -> extents_ok sub (shp t) -> (1 <= length sub)%nat ->
    exists r, symmetrise F (Some half_pow) sub t (Some (repeat ch_minus (length sub))) = Ok r /\ wf r /\ shp r = shp t /\
      forall idx, inb (shp t) idx -> aget r0 r idx = rsum (map (sterm F ch_minus t idx) (perm_sum sub)) * half_pow (symmetry_exponent (map (@length nat) (groups sub))).
  Proof.
    intros W E L. destruct (@symmetrise_char F (Some half_pow) sub t (Some (repeat ch_minus (length sub))) (repeat ch_minus (length (groups sub))) ch_minus W E L) as (r & H1 & H2 & H3 & H4).
    - apply symc_repeat'.
    - intros k Hk _. apply nth_error_repeat_lt. exact Hk.
    - exists r. auto.
  Qed.

  Lemma blocks_singles (t : arr F) no nv : wf t -> shp t = [no; nv] -> spin_blocks_of F (str "ov") 1 t = Ok [(str "bb", t); (str "aa", t)].
  Proof.
    intros W S. assert (E : extents_ok (str "ab") (shp t)).
    { rewrite S. split; [reflexivity|]. intros [|[|?]] [|[|?]] Hi Hj E; cbn in *; try lia; try discriminate; reflexivity. }
    destruct (@symm_minus (str "ab") t W E ltac:(cbn; lia)) as (r & H1 & H2 & H3 & H4).
    assert (R : r = t).
    { apply (@arr_ext _ (@r0 F)); [exact H2|exact W|exact H3|]. intros idx Hi. rewrite H3 in Hi. rewrite (H4 idx Hi).
      rewrite S in Hi. apply inb2 in Hi as (i & a & ->).
      change (perm_sum (str "ab")) with [([0; 1]%nat, 1%Z)]. cbn [map]. rewrite rsum_cons. change (rsum (K:=F) []) with (@r0 F). unfold sterm. cbn [fst snd].
      change (chosen ch_minus 1) with 1%Z. rewrite sgn_1. change (unperm [0; 1]%nat [i; a]) with [i; a].
      change (symmetry_exponent (map (@length nat) (groups (str "ab")))) with 0%nat. unfold half_pow. cbn [rpow]. field. apply (F_1_neq_0 (fth F)). }
    subst r. unfold spin_blocks_of. change (generate_spin_combinations 1 false true) with [str "bb"; str "aa"]. cbn [mapM].
    change (combine_subscripts [str "ov"; str "bb"] []) with (Ok (str "ab", @nil (nat * nat))). change (combine_subscripts [str "ov"; str "aa"] []) with (Ok (str "ab", @nil (nat * nat))).
    cbn [bind fst]. change (2 * 1)%nat with (length (str "ab")). rewrite H1. reflexivity.
  Qed.

  Lemma blocks_doubles (t : arr F) no nv : wf t -> shp t = [no; no; nv; nv] ->
    exists x, spin_blocks_of F (str "oovv") 2 t = Ok [(str "aaaa", x); (str "abab", t); (str "bbbb", x)] /\ wf x /\ shp x = shp t /\
      forall i j a b, (i < no)%nat -> (j < no)%nat -> (a < nv)%nat -> (b < nv)%nat -> aget r0 x [i; j; a; b] = same_spin_doubles F (aget r0 t) i j a b.
  Proof.
    intros W S. assert (E1 : extents_ok (str "aabb") (shp t)).
    { rewrite S. split; [reflexivity|]. intros [|[|[|[|?]]]] [|[|[|[|?]]]] Hi Hj E; cbn in *; try lia; try discriminate; reflexivity. }
    assert (E2 : extents_ok (str "abcd") (shp t)).
    { rewrite S. split; [reflexivity|]. intros [|[|[|[|?]]]] [|[|[|[|?]]]] Hi Hj E; cbn in *; try lia; try discriminate; reflexivity. }
    destruct (@symm_minus (str "aabb") t W E1 ltac:(cbn; lia)) as (x & X1 & X2 & X3 & X4).
    destruct (@symm_minus (str "abcd") t W E2 ltac:(cbn; lia)) as (y & Y1 & Y2 & Y3 & Y4).
    assert (R : y = t).
    { apply (@arr_ext _ (@r0 F)); [exact Y2|exact W|exact Y3|]. intros idx Hi. rewrite Y3 in Hi. rewrite (Y4 idx Hi).
      rewrite S in Hi. apply inb4 in Hi as (i & j & a & b & ->).
      change (perm_sum (str "abcd")) with [([0; 1; 2; 3]%nat, 1%Z)]. cbn [map]. rewrite rsum_cons. change (rsum (K:=F) []) with (@r0 F). unfold sterm. cbn [fst snd].
      change (chosen ch_minus 1) with 1%Z. rewrite sgn_1. change (unperm [0; 1; 2; 3]%nat [i; j; a; b]) with [i; j; a; b].
      change (symmetry_exponent (map (@length nat) (groups (str "abcd")))) with 0%nat. unfold half_pow. cbn [rpow]. field. apply (F_1_neq_0 (fth F)). }
    subst y. exists x. split; [|split; [exact X2|split; [exact X3|]]].
    - unfold spin_blocks_of. change (generate_spin_combinations 2 false true) with [str "aaaa"; str "abab"; str "bbbb"]. cbn [mapM].
      change (combine_subscripts [str "oovv"; str "aaaa"] []) with (Ok (str "aabb", @nil (nat * nat))).
      change (combine_subscripts [str "oovv"; str "abab"] []) with (Ok (str "abcd", @nil (nat * nat))).
      change (combine_subscripts [str "oovv"; str "bbbb"] []) with (Ok (str "aabb", @nil (nat * nat))).
      cbn [bind fst]. change (2 * 2)%nat with (length (str "aabb")) at 1 3. change (2 * 2)%nat with (length (str "abcd")). rewrite X1, Y1. reflexivity.
    - intros i j a b Hi Hj Ha Hb. rewrite X4 by (rewrite S; repeat constructor; assumption).
      change (perm_sum (str "aabb")) with [([0; 1; 2; 3]%nat, 1%Z); ([0; 1; 3; 2]%nat, (-1)%Z); ([1; 0; 2; 3]%nat, (-1)%Z); ([1; 0; 3; 2]%nat, 1%Z)].
      cbn [map]. rewrite !rsum_cons. change (rsum (K:=F) []) with (@r0 F). unfold sterm. cbn [fst snd].
      change (chosen ch_minus 1) with 1%Z. change (chosen ch_minus (-1)) with (-1)%Z. rewrite sgn_1, sgn_m1.
      change (unperm [0; 1; 2; 3]%nat [i; j; a; b]) with [i; j; a; b]. change (unperm [0; 1; 3; 2]%nat [i; j; a; b]) with [i; j; b; a].
      change (unperm [1; 0; 2; 3]%nat [i; j; a; b]) with [j; i; a; b]. change (unperm [1; 0; 3; 2]%nat [i; j; a; b]) with [j; i; b; a].
      change (symmetry_exponent (map (@length nat) (groups (str "aabb")))) with 2%nat. rewrite quarter. unfold same_spin_doubles. ring.
  Qed.
End Restricted.
