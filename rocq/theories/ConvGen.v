(** The amplitudes that [from_uebcc] makes are those of table [spin_orbital]. *)
From Coq Require Import String.
From Coq Require Import Permutation Ring Field List.
From Verif Require Import Base Alg ArrModel PermModel TensorModel AnsatzModel AnsatzSpec AnsatzProofs AnsatzRanks ConvModel ConvSpec ListAux ArrProofs VecThms ConvProofs ConvThms ConvNames ConvRes
  EinsumModel CgModel CgSpec CgFormSpec CgOrderSpec CgNames CgTables CgPairs CgAgree.
Set Implicit Arguments.
Local Open Scope list_scope. Local Open Scope py_scope. Local Open Scope string_scope.

Section Gen.
  Variable F : fld.
  Local Open Scope rng_scope.
  Add Field FfieldConvGen : (fth F) (abstract).
  Hypothesis zero : characteristic_zero F.
  Variable slices : nat -> nat -> list nat.
  Variable size : nat -> nat.
  Variable nbos : nat.

  Lemma coupling_key a cr name key i j : coupling_cluster_ranks a Wt = Ok cr -> In (name, key, i, j) cr ->
    (1 <= i <= frank a)%nat /\ (1 <= j <= brank a)%nat /\ name = (str "u" ++ dec i ++ dec j)%list /\ key = (repeat (chr_of "b") j ++ repeat (chr_of "o") i ++ repeat (chr_of "v") i)%list.
  Proof.
    unfold coupling_cluster_ranks. intros H Hin. apply mapM_F2 in H. destruct (F2_in_r _ H Hin) as ([i' j'] & He & Hy). cbn in Hy. injection Hy as <- <- <- <-.
    apply in_flat_map in He as (i0 & Hi & He). apply in_map_iff in He as (j0 & E & Hj). injection E as <- <-. apply in_seq in Hi. apply in_seq in Hj. repeat split; try lia.
  Qed.

  Definition gkey (lams : bool) (nb : nat) : pystr := (repeat (chr_of "b") nb ++ str (if lams then "vo" else "ov"))%list.
  Lemma from_uebcc_inv lams a (amps : dict pystr (uamp F)) g name w : singles_doubles a -> @from_uebcc F slices size nbos lams a amps = Ok g -> In (name, w) g ->
    (name = fname lams (str "t1") /\ exists bs, dget pystr_eq_dec name amps = Some (Spin F bs) /\ general_amp F slices size nbos true 0 1 (gkey lams 0) bs = Ok w) \/
    (name = fname lams (str "t2") /\ exists bs, dget pystr_eq_dec name amps = Some (Spin F bs) /\ general_amp F slices size nbos true 0 2 (str (if lams then "vvoo" else "oovv")) bs = Ok w) \/
    (exists r, name = bname lams (str "s" ++ r)%list /\ dget pystr_eq_dec name amps = Some (Whole F w)) \/
    (exists j bs, (j = 1 \/ j = 2)%nat /\ name = bname lams (str "u" ++ dec 1 ++ dec j)%list /\ dget pystr_eq_dec name amps = Some (Spin F bs) /\
       general_amp F slices size nbos lams j 1 (gkey lams j) bs = Ok w).
  Proof.
    intros (fr & br0 & Efr & Hfr & _ & _ & Hrank & Hbrank) H Hin. unfold from_uebcc in H. rewrite Efr in H. cbn [bind] in H.
    match type of H with context [mapM ?f fr] => destruct (mapM f fr) as [fs|] eqn:E1 end; [|discriminate]. cbn [bind] in H.
    destruct (bosonic_cluster_ranks a Wt) as [br|] eqn:Ebr; [|discriminate]. cbn [bind] in H.
    match type of H with context [mapM ?f br] => destruct (mapM f br) as [bs|] eqn:E2 end; [|discriminate]. cbn [bind] in H.
    destruct (coupling_cluster_ranks a Wt) as [cr|] eqn:Ecr; [|discriminate]. cbn [bind] in H.
    match type of H with context [mapM ?f cr] => destruct (mapM f cr) as [cs|] eqn:E3 end; [|discriminate]. cbn [bind] in H. injection H as <-.
    apply mapM_F2 in E1. apply mapM_F2 in E2. apply mapM_F2 in E3.
    rewrite !in_app_iff in Hin. destruct Hin as [Hin|[Hin|Hin]].
    - destruct (F2_in_r _ E1 Hin) as ([[n k] r] & He & Hy). clear E1 E2 E3.
      assert (T : name = fname lams n /\ exists bs, dget pystr_eq_dec name amps = Some (Spin F bs) /\ general_amp F slices size nbos true 0 r (if lams then skipn r k ++ firstn r k else k)%list bs = Ok w).
      { unfold lookup_amp in Hy. destruct (dget pystr_eq_dec (fname lams n) amps) as [[b|]|] eqn:D; try discriminate. cbn [bind as_spin] in Hy.
        match type of Hy with context [@general_amp ?a1 ?a2 ?a3 ?a4 ?a5 ?a6 ?a7 ?a8 ?a9] => destruct (@general_amp a1 a2 a3 a4 a5 a6 a7 a8 a9) as [w'|] eqn:B end; [|discriminate]. cbn [bind] in Hy. injection Hy as <- <-. split; [reflexivity|]. exists b. auto. }
      destruct T as (En & Ex). clear Hy.
      destruct (Hfr _ He) as [E|[E|[]]]; injection E as <- <- <-; [left|right; left]; (split; [assumption|]); destruct lams; exact Ex.
    - destruct (F2_in_r _ E2 Hin) as ([[n k] r] & He & Hy). clear E1 E2 E3. right. right. left.
      unfold lookup_amp in Hy. destruct (dget pystr_eq_dec (bname lams n) amps) as [[|v]|] eqn:D; try discriminate. cbn [bind as_plain] in Hy. injection Hy as <- <-.
      destruct (boson_wf _ _ Ebr) as (_ & _ & W). destruct (W _ _ _ He) as (-> & _). exists (dec r). auto.
    - destruct (F2_in_r _ E3 Hin) as ([[[n k] i] j] & He & Hy). clear E1 E2 E3. right. right. right.
      destruct (@coupling_key a cr n k i j Ecr He) as (Hi & Hj & -> & ->). assert (i = 1%nat) by lia. subst i.
      unfold lookup_amp in Hy. destruct (dget pystr_eq_dec (bname lams (str "u" ++ dec 1 ++ dec j)%list) amps) as [[b|]|] eqn:D; try discriminate. cbn [bind as_spin] in Hy.
      match type of Hy with context [@general_amp ?a1 ?a2 ?a3 ?a4 ?a5 ?a6 ?a7 ?a8 ?a9] => destruct (@general_amp a1 a2 a3 a4 a5 a6 a7 a8 a9) as [w'|] eqn:B end; [|discriminate]. cbn [bind] in Hy. injection Hy as <- <-.
      exists j, b. split; [lia|]. split; [reflexivity|]. split; [exact D|].
      assert (j = 1 \/ j = 2)%nat as [-> | ->] by lia; destruct lams; exact B.
  Qed.

  Lemma foldM_found unique nb n key bs w c : @general_amp F slices size nbos unique nb n key bs = Ok w -> In c (generate_spin_combinations n false unique) ->
    exists u, dget pystr_eq_dec c bs = Some u.
  Proof.
    unfold general_amp. generalize (full (repeat nbos nb ++ map size (skipn nb key))%list (@r0 F)). induction (generate_spin_combinations n false unique) as [|c' l IH]; intros acc H Hin; [destruct Hin|].
    cbn [foldM] in H. destruct (dget pystr_eq_dec c' bs) as [u|] eqn:D; [|discriminate]. cbn [bind] in H. destruct Hin as [<-|Hin]; [exists u; exact D|].
    match type of H with context [put_block ?F ?sl ?nn ?b ?nm ?k ?c ?u ?ps ?d ?acc] => destruct (put_block F sl nn b nm k c u ps d acc) as [acc'|] end; [|discriminate]. exact (IH acc' H Hin).
  Qed.
  Lemma singles_found unique nb key bs w : @general_amp F slices size nbos unique nb 1 key bs = Ok w ->
    exists aa bb, dget pystr_eq_dec (str "aa") bs = Some aa /\ dget pystr_eq_dec (str "bb") bs = Some bb.
  Proof.
    intros H. destruct (@foldM_found _ _ _ _ _ _ (str "aa") H) as (aa & A); [destruct unique; vm_compute; tauto|]. destruct (@foldM_found _ _ _ _ _ _ (str "bb") H) as (bb & B); [destruct unique; vm_compute; tauto|].
    exists aa, bb. auto.
  Qed.
  Lemma doubles_found key bs w : @general_amp F slices size nbos true 0 2 key bs = Ok w ->
    exists aaaa abab bbbb, dget pystr_eq_dec (str "aaaa") bs = Some aaaa /\ dget pystr_eq_dec (str "abab") bs = Some abab /\ dget pystr_eq_dec (str "bbbb") bs = Some bbbb.
  Proof.
    intros H. destruct (@foldM_found _ _ _ _ _ _ (str "aaaa") H) as (x & A); [vm_compute; tauto|]. destruct (@foldM_found _ _ _ _ _ _ (str "abab") H) as (y & B); [vm_compute; tauto|].
    destruct (@foldM_found _ _ _ _ _ _ (str "bbbb") H) as (z & C); [vm_compute; tauto|]. exists x, y, z. auto.
  Qed.

  Variable sz : cls -> nat.
  Hypothesis Hsl : spin_slices sz slices size.
  Hypothesis Hnb : nbos = sz 3.

  Definition k1 (lams : bool) : nat := if lams then chr_of "v" else chr_of "o".
  Definition k2 (lams : bool) : nat := if lams then chr_of "o" else chr_of "v".
  Definition skind (lams : bool) (s : bool) : cls := if lams then (if s then 5 else 7)%nat else (if s then 4 else 6)%nat.
  Lemma len_slices lams s : length (slices (spin_char s) (k1 lams)) = sz (skind lams s) /\ length (slices (spin_char s) (k2 lams)) = sz (skind (negb lams) s).
  Proof. destruct Hsl as (_ & _ & _ & _ & A & B & C & D). destruct lams, s; split; assumption. Qed.
  Lemma parts lams : alpha_beta slices size (k1 lams) /\ alpha_beta slices size (k2 lams).
  Proof. destruct Hsl as (A & B & _). destruct lams; split; assumption. Qed.

  Lemma singles_values lams nb unique bs w (eB : env F) xaa xbb :
    @general_amp F slices size nbos unique nb 1 (gkey lams nb) bs = Ok w ->
    eB xaa = dget pystr_eq_dec (str "aa") bs -> eB xbb = dget pystr_eq_dec (str "bb") bs ->
    (forall x cs tn, In (x, cs) spin_blocks -> eB x = Some tn -> of_kinds F sz cs tn) ->
    In (xaa, (repeat 3%nat nb ++ [skind lams true; skind (negb lams) true])%list) spin_blocks ->
    In (xbb, (repeat 3%nat nb ++ [skind lams false; skind (negb lams) false])%list) spin_blocks ->
    forall s t x p q, inb (map sz (repeat 3%nat nb)) x -> (p < sz (skind lams s))%nat -> (q < sz (skind (negb lams) t))%nat ->
      aget r0 w (x ++ [spin_orbital_at slices s (k1 lams) p; spin_orbital_at slices t (k2 lams) q]) = general_singles F (tens F (eB xaa)) (tens F (eB xbb)) s t x p q.
  Proof.
    intros H Ea Eb HK Ia Ib. destruct (@singles_found _ _ _ _ _ H) as (aa & bb & Da & Db). rewrite Da in Ea. rewrite Db in Eb.
    destruct (HK _ _ _ Ia Ea) as (Wa & Sa). destruct (HK _ _ _ Ib Eb) as (Wb & Sb). destruct (parts lams) as (P1 & P2).
    assert (Rep : forall n : nat, map sz (repeat 3%nat n) = repeat nbos n) by (intros n; rewrite Hnb; induction n; cbn; [reflexivity|rewrite IHn; reflexivity]).
    destruct (@singles_ok F slices size nbos unique nb (gkey lams nb) (k1 lams) (k2 lams) bs aa bb) as (r & R & _ & _ & V); try assumption.
    - unfold gkey. rewrite skipn_app, repeat_length, Nat.sub_diag, (skipn_all2 (repeat (chr_of "b") nb)) by (rewrite repeat_length; lia). destruct lams; reflexivity.
    - rewrite Sa, map_app, Rep. unfold block_shape. f_equal. cbn [map]. destruct (len_slices lams true) as (<- & <-). reflexivity.
    - rewrite Sb, map_app, Rep. unfold block_shape. f_equal. cbn [map]. destruct (len_slices lams false) as (<- & <-). reflexivity.
    - rewrite R in H. injection H as <-. intros s t x p q Hx Hp Hq. rewrite Rep in Hx. rewrite Ea, Eb.
      apply V; [exact Hx|destruct (len_slices lams s) as (-> & _); exact Hp|destruct (len_slices lams t) as (_ & ->); exact Hq].
  Qed.

  Lemma doubles_values (lams : bool) bs w (eB : env F) xaaaa xabab xbbbb :
    @general_amp F slices size nbos true 0 2 (str (if lams then "vvoo" else "oovv")) bs = Ok w ->
    eB xaaaa = dget pystr_eq_dec (str "aaaa") bs -> eB xabab = dget pystr_eq_dec (str "abab") bs -> eB xbbbb = dget pystr_eq_dec (str "bbbb") bs ->
    (forall x cs tn, In (x, cs) spin_blocks -> eB x = Some tn -> of_kinds F sz cs tn) ->
    In (xaaaa, [skind lams true; skind lams true; skind (negb lams) true; skind (negb lams) true]) spin_blocks ->
    In (xabab, [skind lams true; skind lams false; skind (negb lams) true; skind (negb lams) false]) spin_blocks ->
    In (xbbbb, [skind lams false; skind lams false; skind (negb lams) false; skind (negb lams) false]) spin_blocks ->
    forall s t u v i j a b, (i < sz (skind lams s))%nat -> (j < sz (skind lams t))%nat -> (a < sz (skind (negb lams) u))%nat -> (b < sz (skind (negb lams) v))%nat ->
      aget r0 w [spin_orbital_at slices s (k1 lams) i; spin_orbital_at slices t (k1 lams) j; spin_orbital_at slices u (k2 lams) a; spin_orbital_at slices v (k2 lams) b] =
      general_doubles F (tens F (eB xaaaa)) (tens F (eB xabab)) (tens F (eB xbbbb)) s t u v i j a b.
  Proof.
    intros H Ea Eb Ec HK Ia Ib Ic. destruct (@doubles_found _ _ _ H) as (aa & ab & bb & Da & Db & Dc). rewrite Da in Ea. rewrite Db in Eb. rewrite Dc in Ec.
    destruct (HK _ _ _ Ia Ea) as (Wa & Sa). destruct (HK _ _ _ Ib Eb) as (Wb & Sb). destruct (HK _ _ _ Ic Ec) as (Wc & Sc). destruct (parts lams) as (P1 & P2).
    destruct (@doubles_ok F slices size nbos true (k1 lams) (k2 lams) bs aa ab bb) as (r & R & _ & _ & V); try assumption; try reflexivity.
    - rewrite Sa. unfold block_shape. cbn [map]. destruct (len_slices lams true) as (<- & <-). reflexivity.
    - rewrite Sb. unfold block_shape. cbn [map]. destruct (len_slices lams true) as (<- & <-). destruct (len_slices lams false) as (<- & <-). reflexivity.
    - rewrite Sc. unfold block_shape. cbn [map]. destruct (len_slices lams false) as (<- & <-). reflexivity.
    - assert (Ek : str (if lams then "vvoo" else "oovv") = [k1 lams; k1 lams; k2 lams; k2 lams]) by (destruct lams; reflexivity). rewrite Ek, R in H. injection H as <-.
      intros s t u v i j a b Hi Hj Ha Hb. rewrite Ea, Eb, Ec.
      apply V; [destruct (len_slices lams s) as (-> & _)|destruct (len_slices lams t) as (-> & _)|destruct (len_slices lams u) as (_ & ->)|destruct (len_slices lams v) as (_ & ->)]; assumption.
  Qed.

  Definition general_kinds (x : ref) : option (list cls) := match filter (fun r => Pos.eqb x (fst r)) spatial with (_, cs) :: _ => Some cs | [] => None end.

  Lemma inb2' n1 n2 idx : inb [n1; n2] idx -> exists i j, idx = [i; j] /\ (i < n1 /\ j < n2)%nat.
  Proof. intros H. destruct (inb2 H) as (i & j & ->). exists i, j. inversion H as [|? ? ? ? L1 H1]; subst. inversion H1 as [|? ? ? ? L2 H2]; subst. auto. Qed.
  Lemma inb3' n1 n2 n3 idx : inb [n1; n2; n3] idx -> exists x i j, idx = [x; i; j] /\ inb [n1] [x] /\ (i < n2 /\ j < n3)%nat.
  Proof. intros H. inversion H as [|? ? ? ? L1 H1]; subst. apply inb2' in H1 as (i & j & -> & Hi & Hj). eexists _, i, j. split; [reflexivity|]. split; [repeat constructor; exact L1|auto]. Qed.
  Lemma inb4'' n1 n2 n3 n4 idx : inb [n1; n2; n3; n4] idx -> exists x y i j, idx = [x; y; i; j] /\ inb [n1; n2] [x; y] /\ (i < n3 /\ j < n4)%nat.
  Proof. intros H. inversion H as [|? ? ? ? L1 H1]; subst. apply inb3' in H1 as (y & i & j & -> & Hy & Hi & Hj). eexists _, y, i, j. split; [reflexivity|]. split; [constructor; assumption|auto]. Qed.

  Lemma coef_2_1 : coef F 2 1 = 1 + 1.
  Proof. unfold coef. rewrite rZ_1, rZ_2. field. exact (one F). Qed.
  Lemma coef_m1_1 : coef F (-1) 1 = - (1).
  Proof. unfold coef. rewrite rZ_1, rZ_m1. field. exact (one F). Qed.


  Ltac each Hp := repeat (destruct Hp as [<-|Hp]); [..|destruct Hp].
  Ltac evaluate := match goal with |- context [lookup ?T ?x ?p] => let v := eval vm_compute in (lookup T x p) in change (lookup T x p) with v end; unfold n_t1'aa, n_t1'bb, n_l1'aa, n_l1'bb, n_u11'aa, n_u11'bb, n_u12'aa, n_u12'bb, n_lu11'aa, n_lu11'bb, n_lu12'aa, n_lu12'bb, n_t2'aaaa, n_t2'abab, n_t2'bbbb, n_l2'aaaa, n_l2'abab, n_l2'bbbb; cbn; rewrite ?coef_1_1, ?coef_2_1, ?coef_m1_1; cbn; try ring.

  Section Given.
  Variable lams : bool.
  Variable amps : dict pystr (uamp F).
  Variable eB : env F.
  Hypothesis HB : forall x name comb, In (x, (name, comb)) (block_names lams) -> eB x = amplitude amps name comb.
  Hypothesis HK : forall x cs tn, In (x, cs) spin_blocks -> eB x = Some tn -> of_kinds F sz cs tn.
  Hypothesis HS : symmetric sz spin_blocks_symmetries spin_blocks eB.
  Lemma blocks_in x name comb bs : In (x, (name, Some comb)) (block_names lams) -> dget pystr_eq_dec (str name) amps = Some (Spin F bs) -> eB x = dget pystr_eq_dec (str comb) bs.
  Proof. intros H D. rewrite (HB _ _ _ H). unfold amplitude. rewrite D. reflexivity. Qed.
  End Given.

  Lemma given_t1 amps eB : (forall x name comb, In (x, (name, comb)) (block_names false) -> eB x = amplitude amps name comb) ->
    (forall x cs tn, In (x, cs) spin_blocks -> eB x = Some tn -> of_kinds F sz cs tn) -> forall bs w,
    dget pystr_eq_dec (str "t1") amps = Some (Spin F bs) -> @general_amp F slices size nbos true 0 1 (gkey false 0) bs = Ok w ->
    given_at sz spin_split (spin_positions slices) spin_orbital eB n_t1 [0; 1]%nat (tens F (Some w)).
  Proof.
    intros HB HK bs w D H. pose proof (@singles_values _ _ _ _ _ eB n_t1'aa n_t1'bb H) as V.
    specialize (V (@blocks_in _ _ _ HB n_t1'aa "t1" "aa" _ ltac:(mem) D) (@blocks_in _ _ _ HB n_t1'bb "t1" "bb" _ ltac:(mem) D) HK ltac:(mem) ltac:(mem)).
    intros pat idx Hp Hi. cbn in Hp. each Hp; apply inb2' in Hi as (p & q & -> & Hp & Hq).
    - etransitivity; [exact (V true true [] p q (Forall2_nil _) Hp Hq)|]. cbn [general_singles app]. evaluate.
    - etransitivity; [exact (V true false [] p q (Forall2_nil _) Hp Hq)|]. cbn [general_singles app]. evaluate.
    - etransitivity; [exact (V false true [] p q (Forall2_nil _) Hp Hq)|]. cbn [general_singles app]. evaluate.
    - etransitivity; [exact (V false false [] p q (Forall2_nil _) Hp Hq)|]. cbn [general_singles app]. evaluate.
  Qed.
  Lemma given_l1 amps eB : (forall x name comb, In (x, (name, comb)) (block_names true) -> eB x = amplitude amps name comb) ->
    (forall x cs tn, In (x, cs) spin_blocks -> eB x = Some tn -> of_kinds F sz cs tn) -> forall bs w,
    dget pystr_eq_dec (str "l1") amps = Some (Spin F bs) -> @general_amp F slices size nbos true 0 1 (gkey true 0) bs = Ok w ->
    given_at sz spin_split (spin_positions slices) spin_orbital eB n_l1 [1; 0]%nat (tens F (Some w)).
  Proof.
    intros HB HK bs w D H. pose proof (@singles_values _ _ _ _ _ eB n_l1'aa n_l1'bb H) as V.
    specialize (V (@blocks_in _ _ _ HB n_l1'aa "l1" "aa" _ ltac:(mem) D) (@blocks_in _ _ _ HB n_l1'bb "l1" "bb" _ ltac:(mem) D) HK ltac:(mem) ltac:(mem)).
    intros pat idx Hp Hi. cbn in Hp. each Hp; apply inb2' in Hi as (p & q & -> & Hp & Hq).
    - etransitivity; [exact (V true true [] p q (Forall2_nil _) Hp Hq)|]. cbn [general_singles app]. evaluate.
    - etransitivity; [exact (V true false [] p q (Forall2_nil _) Hp Hq)|]. cbn [general_singles app]. evaluate.
    - etransitivity; [exact (V false true [] p q (Forall2_nil _) Hp Hq)|]. cbn [general_singles app]. evaluate.
    - etransitivity; [exact (V false false [] p q (Forall2_nil _) Hp Hq)|]. cbn [general_singles app]. evaluate.
  Qed.
  Lemma given_u11 amps eB : (forall x name comb, In (x, (name, comb)) (block_names false) -> eB x = amplitude amps name comb) ->
    (forall x cs tn, In (x, cs) spin_blocks -> eB x = Some tn -> of_kinds F sz cs tn) -> forall bs w,
    dget pystr_eq_dec (str "u11") amps = Some (Spin F bs) -> @general_amp F slices size nbos false 1 1 (gkey false 1) bs = Ok w ->
    given_at sz spin_split (spin_positions slices) spin_orbital eB n_u11 [3; 0; 1]%nat (tens F (Some w)).
  Proof.
    intros HB HK bs w D H. pose proof (@singles_values _ _ _ _ _ eB n_u11'aa n_u11'bb H) as V.
    specialize (V (@blocks_in _ _ _ HB n_u11'aa "u11" "aa" _ ltac:(mem) D) (@blocks_in _ _ _ HB n_u11'bb "u11" "bb" _ ltac:(mem) D) HK ltac:(mem) ltac:(mem)).
    intros pat idx Hp Hi. cbn in Hp. each Hp; apply inb3' in Hi as (x & p & q & -> & Hx & Hp & Hq).
    - etransitivity; [exact (V true true [x] p q Hx Hp Hq)|]. cbn [general_singles app]. evaluate.
    - etransitivity; [exact (V true false [x] p q Hx Hp Hq)|]. cbn [general_singles app]. evaluate.
    - etransitivity; [exact (V false true [x] p q Hx Hp Hq)|]. cbn [general_singles app]. evaluate.
    - etransitivity; [exact (V false false [x] p q Hx Hp Hq)|]. cbn [general_singles app]. evaluate.
  Qed.
  Lemma given_lu11 amps eB : (forall x name comb, In (x, (name, comb)) (block_names true) -> eB x = amplitude amps name comb) ->
    (forall x cs tn, In (x, cs) spin_blocks -> eB x = Some tn -> of_kinds F sz cs tn) -> forall bs w,
    dget pystr_eq_dec (str "lu11") amps = Some (Spin F bs) -> @general_amp F slices size nbos true 1 1 (gkey true 1) bs = Ok w ->
    given_at sz spin_split (spin_positions slices) spin_orbital eB n_lu11 [3; 1; 0]%nat (tens F (Some w)).
  Proof.
    intros HB HK bs w D H. pose proof (@singles_values _ _ _ _ _ eB n_lu11'aa n_lu11'bb H) as V.
    specialize (V (@blocks_in _ _ _ HB n_lu11'aa "lu11" "aa" _ ltac:(mem) D) (@blocks_in _ _ _ HB n_lu11'bb "lu11" "bb" _ ltac:(mem) D) HK ltac:(mem) ltac:(mem)).
    intros pat idx Hp Hi. cbn in Hp. each Hp; apply inb3' in Hi as (x & p & q & -> & Hx & Hp & Hq).
    - etransitivity; [exact (V true true [x] p q Hx Hp Hq)|]. cbn [general_singles app]. evaluate.
    - etransitivity; [exact (V true false [x] p q Hx Hp Hq)|]. cbn [general_singles app]. evaluate.
    - etransitivity; [exact (V false true [x] p q Hx Hp Hq)|]. cbn [general_singles app]. evaluate.
    - etransitivity; [exact (V false false [x] p q Hx Hp Hq)|]. cbn [general_singles app]. evaluate.
  Qed.
  Lemma given_u12 amps eB : (forall x name comb, In (x, (name, comb)) (block_names false) -> eB x = amplitude amps name comb) ->
    (forall x cs tn, In (x, cs) spin_blocks -> eB x = Some tn -> of_kinds F sz cs tn) -> forall bs w,
    dget pystr_eq_dec (str "u12") amps = Some (Spin F bs) -> @general_amp F slices size nbos false 2 1 (gkey false 2) bs = Ok w ->
    given_at sz spin_split (spin_positions slices) spin_orbital eB n_u12 [3; 3; 0; 1]%nat (tens F (Some w)).
  Proof.
    intros HB HK bs w D H. pose proof (@singles_values _ _ _ _ _ eB n_u12'aa n_u12'bb H) as V.
    specialize (V (@blocks_in _ _ _ HB n_u12'aa "u12" "aa" _ ltac:(mem) D) (@blocks_in _ _ _ HB n_u12'bb "u12" "bb" _ ltac:(mem) D) HK ltac:(mem) ltac:(mem)).
    intros pat idx Hp Hi. cbn in Hp. each Hp; apply inb4'' in Hi as (x & y & p & q & -> & Hx & Hp & Hq).
    - etransitivity; [exact (V true true [x; y] p q Hx Hp Hq)|]. cbn [general_singles app]. evaluate.
    - etransitivity; [exact (V true false [x; y] p q Hx Hp Hq)|]. cbn [general_singles app]. evaluate.
    - etransitivity; [exact (V false true [x; y] p q Hx Hp Hq)|]. cbn [general_singles app]. evaluate.
    - etransitivity; [exact (V false false [x; y] p q Hx Hp Hq)|]. cbn [general_singles app]. evaluate.
  Qed.
  Lemma given_lu12 amps eB : (forall x name comb, In (x, (name, comb)) (block_names true) -> eB x = amplitude amps name comb) ->
    (forall x cs tn, In (x, cs) spin_blocks -> eB x = Some tn -> of_kinds F sz cs tn) -> forall bs w,
    dget pystr_eq_dec (str "lu12") amps = Some (Spin F bs) -> @general_amp F slices size nbos true 2 1 (gkey true 2) bs = Ok w ->
    given_at sz spin_split (spin_positions slices) spin_orbital eB n_lu12 [3; 3; 1; 0]%nat (tens F (Some w)).
  Proof.
    intros HB HK bs w D H. pose proof (@singles_values _ _ _ _ _ eB n_lu12'aa n_lu12'bb H) as V.
    specialize (V (@blocks_in _ _ _ HB n_lu12'aa "lu12" "aa" _ ltac:(mem) D) (@blocks_in _ _ _ HB n_lu12'bb "lu12" "bb" _ ltac:(mem) D) HK ltac:(mem) ltac:(mem)).
    intros pat idx Hp Hi. cbn in Hp. each Hp; apply inb4'' in Hi as (x & y & p & q & -> & Hx & Hp & Hq).
    - etransitivity; [exact (V true true [x; y] p q Hx Hp Hq)|]. cbn [general_singles app]. evaluate.
    - etransitivity; [exact (V true false [x; y] p q Hx Hp Hq)|]. cbn [general_singles app]. evaluate.
    - etransitivity; [exact (V false true [x; y] p q Hx Hp Hq)|]. cbn [general_singles app]. evaluate.
    - etransitivity; [exact (V false false [x; y] p q Hx Hp Hq)|]. cbn [general_singles app]. evaluate.
  Qed.
  Lemma given_t2 amps eB : (forall x name comb, In (x, (name, comb)) (block_names false) -> eB x = amplitude amps name comb) ->
    (forall x cs tn, In (x, cs) spin_blocks -> eB x = Some tn -> of_kinds F sz cs tn) -> symmetric sz spin_blocks_symmetries spin_blocks eB -> forall bs w,
    dget pystr_eq_dec (str "t2") amps = Some (Spin F bs) -> @general_amp F slices size nbos true 0 2 (str "oovv") bs = Ok w ->
    given_at sz spin_split (spin_positions slices) spin_orbital eB n_t2 [0; 0; 1; 1]%nat (tens F (Some w)).
  Proof.
    intros HB HK HS bs w D H. pose proof (@doubles_values false bs w eB n_t2'aaaa n_t2'abab n_t2'bbbb H) as V.
    specialize (V (@blocks_in _ _ _ HB n_t2'aaaa "t2" "aaaa" _ ltac:(mem) D) (@blocks_in _ _ _ HB n_t2'abab "t2" "abab" _ ltac:(mem) D) (@blocks_in _ _ _ HB n_t2'bbbb "t2" "bbbb" _ ltac:(mem) D)
      HK ltac:(mem) ltac:(mem) ltac:(mem)).
    assert (Ha : forall i j a b, inb (map sz [4; 4; 5; 5]%nat) [i; j; a; b] -> tens F (eB n_t2'aaaa) [j; i; a; b] = - tens F (eB n_t2'aaaa) [i; j; a; b])
      by (intros i j a b Hi; exact (HS n_t2'aaaa [4; 4; 5; 5]%nat _ [1; 0; 2; 3]%nat true ltac:(mem) ltac:(mem) (or_intror (or_introl eq_refl)) [i; j; a; b] Hi)).
    assert (Hb : forall i j a b, inb (map sz [6; 6; 7; 7]%nat) [i; j; a; b] -> tens F (eB n_t2'bbbb) [j; i; a; b] = - tens F (eB n_t2'bbbb) [i; j; a; b])
      by (intros i j a b Hi; exact (HS n_t2'bbbb [6; 6; 7; 7]%nat _ [1; 0; 2; 3]%nat true ltac:(mem) ltac:(mem) (or_intror (or_introl eq_refl)) [i; j; a; b] Hi)).
    intros pat idx Hp Hi. cbn in Hp. each Hp; pose proof Hi as Hi'; apply inb4' in Hi' as (i & j & a & b & -> & L1 & L2 & L3 & L4).
    - etransitivity; [exact (V true true true true i j a b L1 L2 L3 L4)|]. cbn [general_doubles]. rewrite (Ha i j a b Hi). evaluate.
    - etransitivity; [exact (V true true true false i j a b L1 L2 L3 L4)|]. cbn [general_doubles]. evaluate.
    - etransitivity; [exact (V true true false true i j a b L1 L2 L3 L4)|]. cbn [general_doubles]. evaluate.
    - etransitivity; [exact (V true true false false i j a b L1 L2 L3 L4)|]. cbn [general_doubles]. evaluate.
    - etransitivity; [exact (V true false true true i j a b L1 L2 L3 L4)|]. cbn [general_doubles]. evaluate.
    - etransitivity; [exact (V true false true false i j a b L1 L2 L3 L4)|]. cbn [general_doubles]. evaluate.
    - etransitivity; [exact (V true false false true i j a b L1 L2 L3 L4)|]. cbn [general_doubles]. evaluate.
    - etransitivity; [exact (V true false false false i j a b L1 L2 L3 L4)|]. cbn [general_doubles]. evaluate.
    - etransitivity; [exact (V false true true true i j a b L1 L2 L3 L4)|]. cbn [general_doubles]. evaluate.
    - etransitivity; [exact (V false true true false i j a b L1 L2 L3 L4)|]. cbn [general_doubles]. evaluate.
    - etransitivity; [exact (V false true false true i j a b L1 L2 L3 L4)|]. cbn [general_doubles]. evaluate.
    - etransitivity; [exact (V false true false false i j a b L1 L2 L3 L4)|]. cbn [general_doubles]. evaluate.
    - etransitivity; [exact (V false false true true i j a b L1 L2 L3 L4)|]. cbn [general_doubles]. evaluate.
    - etransitivity; [exact (V false false true false i j a b L1 L2 L3 L4)|]. cbn [general_doubles]. evaluate.
    - etransitivity; [exact (V false false false true i j a b L1 L2 L3 L4)|]. cbn [general_doubles]. evaluate.
    - etransitivity; [exact (V false false false false i j a b L1 L2 L3 L4)|]. cbn [general_doubles]. rewrite (Hb i j a b Hi). evaluate.
  Qed.
  Lemma given_l2 amps eB : (forall x name comb, In (x, (name, comb)) (block_names true) -> eB x = amplitude amps name comb) ->
    (forall x cs tn, In (x, cs) spin_blocks -> eB x = Some tn -> of_kinds F sz cs tn) -> symmetric sz spin_blocks_symmetries spin_blocks eB -> forall bs w,
    dget pystr_eq_dec (str "l2") amps = Some (Spin F bs) -> @general_amp F slices size nbos true 0 2 (str "vvoo") bs = Ok w ->
    given_at sz spin_split (spin_positions slices) spin_orbital eB n_l2 [1; 1; 0; 0]%nat (tens F (Some w)).
  Proof.
    intros HB HK HS bs w D H. pose proof (@doubles_values true bs w eB n_l2'aaaa n_l2'abab n_l2'bbbb H) as V.
    specialize (V (@blocks_in _ _ _ HB n_l2'aaaa "l2" "aaaa" _ ltac:(mem) D) (@blocks_in _ _ _ HB n_l2'abab "l2" "abab" _ ltac:(mem) D) (@blocks_in _ _ _ HB n_l2'bbbb "l2" "bbbb" _ ltac:(mem) D)
      HK ltac:(mem) ltac:(mem) ltac:(mem)).
    assert (Ha : forall i j a b, inb (map sz [5; 5; 4; 4]%nat) [i; j; a; b] -> tens F (eB n_l2'aaaa) [j; i; a; b] = - tens F (eB n_l2'aaaa) [i; j; a; b])
      by (intros i j a b Hi; exact (HS n_l2'aaaa [5; 5; 4; 4]%nat _ [1; 0; 2; 3]%nat true ltac:(mem) ltac:(mem) (or_intror (or_introl eq_refl)) [i; j; a; b] Hi)).
    assert (Hb : forall i j a b, inb (map sz [7; 7; 6; 6]%nat) [i; j; a; b] -> tens F (eB n_l2'bbbb) [j; i; a; b] = - tens F (eB n_l2'bbbb) [i; j; a; b])
      by (intros i j a b Hi; exact (HS n_l2'bbbb [7; 7; 6; 6]%nat _ [1; 0; 2; 3]%nat true ltac:(mem) ltac:(mem) (or_intror (or_introl eq_refl)) [i; j; a; b] Hi)).
    intros pat idx Hp Hi. cbn in Hp. each Hp; pose proof Hi as Hi'; apply inb4' in Hi' as (i & j & a & b & -> & L1 & L2 & L3 & L4).
    - etransitivity; [exact (V true true true true i j a b L1 L2 L3 L4)|]. cbn [general_doubles]. rewrite (Ha i j a b Hi). evaluate.
    - etransitivity; [exact (V true true true false i j a b L1 L2 L3 L4)|]. cbn [general_doubles]. evaluate.
    - etransitivity; [exact (V true true false true i j a b L1 L2 L3 L4)|]. cbn [general_doubles]. evaluate.
    - etransitivity; [exact (V true true false false i j a b L1 L2 L3 L4)|]. cbn [general_doubles]. evaluate.
    - etransitivity; [exact (V true false true true i j a b L1 L2 L3 L4)|]. cbn [general_doubles]. evaluate.
    - etransitivity; [exact (V true false true false i j a b L1 L2 L3 L4)|]. cbn [general_doubles]. evaluate.
    - etransitivity; [exact (V true false false true i j a b L1 L2 L3 L4)|]. cbn [general_doubles]. evaluate.
    - etransitivity; [exact (V true false false false i j a b L1 L2 L3 L4)|]. cbn [general_doubles]. evaluate.
    - etransitivity; [exact (V false true true true i j a b L1 L2 L3 L4)|]. cbn [general_doubles]. evaluate.
    - etransitivity; [exact (V false true true false i j a b L1 L2 L3 L4)|]. cbn [general_doubles]. evaluate.
    - etransitivity; [exact (V false true false true i j a b L1 L2 L3 L4)|]. cbn [general_doubles]. evaluate.
    - etransitivity; [exact (V false true false false i j a b L1 L2 L3 L4)|]. cbn [general_doubles]. evaluate.
    - etransitivity; [exact (V false false true true i j a b L1 L2 L3 L4)|]. cbn [general_doubles]. evaluate.
    - etransitivity; [exact (V false false true false i j a b L1 L2 L3 L4)|]. cbn [general_doubles]. evaluate.
    - etransitivity; [exact (V false false false true i j a b L1 L2 L3 L4)|]. cbn [general_doubles]. evaluate.
    - etransitivity; [exact (V false false false false i j a b L1 L2 L3 L4)|]. cbn [general_doubles]. rewrite (Hb i j a b Hi). evaluate.
  Qed.

  Lemma from_uebcc_given a amps g (eB : env F) : singles_doubles a ->
    symmetric sz spin_blocks_symmetries spin_blocks eB -> unrestricted_amplitudes sz amps eB ->
    (forall lams, @from_uebcc F slices size nbos lams a (amps lams) = Ok (g lams)) ->
    forall lams x name w cs, In (x, name) (plain_names lams) -> dget pystr_eq_dec (str name) (g lams) = Some w -> general_kinds x = Some cs ->
    given_at sz spin_split (spin_positions slices) spin_orbital eB x cs (tens F (Some w)).
  Proof.
    intros Hsd HS (HB & HK) Hu lams x name w cs Hx Hw Hc. apply dget_in' in Hw. pose proof (@from_uebcc_inv lams a (amps lams) (g lams) (str name) w Hsd (Hu lams) Hw) as I. specialize (HB lams).
    assert (B : forall r, str name = bname lams (str "s" ++ r)%list -> dget pystr_eq_dec (str name) (amps lams) = Some (Whole F w) -> given_at sz spin_split (spin_positions slices) spin_orbital eB x cs (tens F (Some w))).
    { clear I Hw Hu. intros r En D.
      assert (W : forall y, In (y, (name, None)) (block_names lams) -> eB y = Some w) by (intros y Hy; rewrite (HB _ _ _ Hy); unfold amplitude; rewrite D; reflexivity).
      destruct lams; cbv [plain_names In] in Hx; repeat (destruct Hx as [Hx|Hx]; [injection Hx as <- <-; first [discriminate En|idtac]|]); try destruct Hx;
        cbv in Hc; injection Hc as <-; match goal with |- given_at _ _ _ _ _ ?y _ _ => specialize (W y ltac:(mem)) end;
        intros pat idx Hp Hi; cbn in Hp; (destruct Hp as [<-|[]]); first [apply inb1 in Hi as (? & ->)|apply inb2 in Hi as (? & ? & ->)]; cbn; rewrite W, (coef_1_1 F); cbn; ring. }
    destruct I as [(En & bs & D & H)|[(En & bs & D & H)|[(r & En & D)|(j & bs & Hj & En & D & H)]]]; [| |exact (B r En D)|]; clear B Hw Hu.
    - destruct lams; cbv [plain_names In] in Hx; repeat (destruct Hx as [Hx|Hx]; [injection Hx as <- <-; first [discriminate En|idtac]|]); try destruct Hx; cbv in Hc; injection Hc as <-;
        [eapply given_l1; eassumption|eapply given_t1; eassumption].
    - destruct lams; cbv [plain_names In] in Hx; repeat (destruct Hx as [Hx|Hx]; [injection Hx as <- <-; first [discriminate En|idtac]|]); try destruct Hx; cbv in Hc; injection Hc as <-;
        [eapply given_l2; eassumption|eapply given_t2; eassumption].
    - destruct lams; cbv [plain_names In] in Hx; (destruct Hj as [-> | ->]); repeat (destruct Hx as [Hx|Hx]; [injection Hx as <- <-; first [discriminate En|idtac]|]); try destruct Hx; cbv in Hc; injection Hc as <-;
        first [eapply given_lu11; eassumption|eapply given_lu12; eassumption|eapply given_u11; eassumption|eapply given_u12; eassumption].
  Qed.
End Gen.
