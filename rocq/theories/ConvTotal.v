(** The conversions succeed. *)
From Coq Require Import String.
From Coq Require Import Permutation Ring Field List.
From Verif Require Import Base Alg ArrModel PermModel TensorModel AnsatzModel AnsatzSpec AnsatzProofs AnsatzRanks ConvModel ConvSpec ListAux ArrProofs VecThms ConvProofs ConvThms ConvNames ConvRes ConvGen
  EinsumModel CgModel CgSpec CgFormSpec CgOrderSpec CgNames CgTables CgPairs CgAgree.
Set Implicit Arguments.
Local Open Scope list_scope. Local Open Scope py_scope. Local Open Scope string_scope.

Section Total.
  Variable F : fld.
  Hypothesis zero : characteristic_zero F.

  Lemma coupling_cases a cr name key i j : singles_doubles a -> coupling_cluster_ranks a Wt = Ok cr -> In (name, key, i, j) cr ->
    i = 1%nat /\ ((j = 1%nat /\ name = str "u11" /\ key = str "bov") \/ (j = 2%nat /\ name = str "u12" /\ key = str "bbov")).
  Proof.
    intros (fr & br & _ & _ & _ & _ & Hf & Hb) Ecr He. destruct (@coupling_key a cr name key i j Ecr He) as (Hi & Hj & -> & ->). assert (i = 1%nat) by lia. subst i.
    split; [reflexivity|]. assert (j = 1 \/ j = 2)%nat as [-> | ->] by lia; [left|right]; auto.
  Qed.

  Lemma keys_result {A B} (f : A -> result (pystr * B)) (nm : A -> pystr) l ys : (forall x y, f x = Ok y -> fst y = nm x) -> mapM f l = Ok ys -> map fst ys = map nm l.
  Proof. intros Hf H. apply mapM_F2 in H. induction H as [|x y l ys Hx H IH]; [reflexivity|]. cbn. rewrite IH, (Hf _ _ Hx). reflexivity. Qed.
  Lemma dget_key_some {B} k (d : dict pystr B) : In k (map fst d) -> exists v, dget pystr_eq_dec k d = Some v.
  Proof. induction d as [|[k' v] d IH]; cbn; [intros []|]. intros [<-|H]; destruct (pystr_eq_dec _ _) as [E|E]; eauto; congruence. Qed.

  Section Restricted.
  Variable sz : cls -> nat.
  Hypothesis Hs : splits sz closed_split.
  Lemma closed_sizes : sz 4 = sz 0 /\ sz 6 = sz 0 /\ sz 5 = sz 1 /\ sz 7 = sz 1.
  Proof. repeat split; match goal with |- sz ?c = _ => destruct (Hs c) as (_ & E); rewrite E; cbn; lia end. Qed.

  Lemma from_rebcc_total lams a (amps : bool -> dict pystr (arr F)) eB : singles_doubles a -> restricted_amplitudes sz amps eB ->
    (forall x nm, In (x, nm) (plain_names lams) -> exists tn, eB x = Some tn) ->
    exists u, from_rebcc F lams a (amps lams) = Ok u /\ map fst u = amplitude_names lams a.
  Proof.
    intros Hsd (HB & HK) Hall. pose proof Hsd as (fr & br & Efr & Hfr & Ebr & Hbr & _).
    assert (Get : forall x nm cs, In (x, nm) (plain_names lams) -> In (x, cs) spatial -> exists tn, dget pystr_eq_dec (str nm) (amps lams) = Some tn /\ of_kinds F sz cs tn).
    { intros x nm cs Hx Hc. destruct (Hall _ _ Hx) as (tn & E). pose proof (HB _ _ _ Hx) as E'. rewrite E in E'. exists tn. split; [symmetry; exact E'|exact (HK _ _ _ Hc E)]. }
    unfold from_rebcc, amplitude_names. rewrite Efr, Ebr.
    destruct (coupling_wf a (w := Wt) (or_introl eq_refl)) as (cr & Ecr & _). rewrite Ecr. cbn [bind].
    match goal with |- context [mapM ?f fr] => destruct (@mapM_total _ _ f fr) as (fs & E1); [|assert (K1 : map fst fs = map (fun e => fname lams (fst (fst e))) fr)] end.
    { intros e He. destruct (Hfr _ He) as [<-|[<-|[]]].
      - destruct lams.
        + destruct (Get n_l1 "l1" [1; 0]%nat ltac:(mem) ltac:(mem)) as (tn & D & W & S). unfold lookup_amp. change (fname true (str "t1")) with (str "l1"). rewrite D. cbn [andb negb bind].
          rewrite (@blocks_singles F tn _ _ W S). cbn [bind]. eauto.
        + destruct (Get n_t1 "t1" [0; 1]%nat ltac:(mem) ltac:(mem)) as (tn & D & W & S). unfold lookup_amp. change (fname false (str "t1")) with (str "t1"). rewrite D. cbn [andb negb bind].
          change (3 <? 1)%nat with false. cbn [andb]. rewrite (@blocks_singles F tn _ _ W S). cbn [bind]. eauto.
      - destruct lams.
        + destruct (Get n_l2 "l2" [1; 1; 0; 0]%nat ltac:(mem) ltac:(mem)) as (tn & D & W & S). unfold lookup_amp. change (fname true (str "t2")) with (str "l2"). rewrite D. cbn [andb negb bind].
          destruct (@blocks_doubles F (two zero) tn _ _ W S) as (x & -> & _). cbn [bind]. eauto.
        + destruct (Get n_t2 "t2" [0; 0; 1; 1]%nat ltac:(mem) ltac:(mem)) as (tn & D & W & S). unfold lookup_amp. change (fname false (str "t2")) with (str "t2"). rewrite D. cbn [andb negb bind].
          change (3 <? 2)%nat with false. cbn [andb]. destruct (@blocks_doubles F (two zero) tn _ _ W S) as (x & -> & _). cbn [bind]. eauto. }
    { eapply keys_result; [|exact E1]. intros [[n k] r] y Hy. cbv beta iota in Hy. cbn [fst]. destruct (negb lams && (3 <? r)%nat); [discriminate|]. destruct (lookup_amp (amps lams) (fname lams n)); [|discriminate]. cbn [bind] in Hy.
      destruct (spin_blocks_of F k r a0); [|discriminate]. cbn [bind] in Hy. injection Hy as <-. reflexivity. }
    rewrite E1. cbn [bind].
    match goal with |- context [mapM ?f br] => destruct (@mapM_total _ _ f br) as (bs & E2); [|assert (K2 : map fst bs = map (fun e => bname lams (fst (fst e))) br)] end.
    { intros e He. destruct (Hbr _ He) as [<-|[<-|[]]]; destruct lams.
      - destruct (Get n_ls1 "ls1" _ ltac:(mem) ltac:(mem)) as (tn & D & _). unfold lookup_amp. change (bname true (str "s1")) with (str "ls1"). rewrite D. cbn [bind]. eauto.
      - destruct (Get n_s1 "s1" _ ltac:(mem) ltac:(mem)) as (tn & D & _). unfold lookup_amp. change (bname false (str "s1")) with (str "s1"). rewrite D. cbn [bind]. eauto.
      - destruct (Get n_ls2 "ls2" _ ltac:(mem) ltac:(mem)) as (tn & D & _). unfold lookup_amp. change (bname true (str "s2")) with (str "ls2"). rewrite D. cbn [bind]. eauto.
      - destruct (Get n_s2 "s2" _ ltac:(mem) ltac:(mem)) as (tn & D & _). unfold lookup_amp. change (bname false (str "s2")) with (str "s2"). rewrite D. cbn [bind]. eauto. }
    { eapply keys_result; [|exact E2]. intros [[n k] r] y Hy. cbv beta iota in Hy. cbn [fst]. destruct (lookup_amp (amps lams) (bname lams n)); [|discriminate]. cbn [bind] in Hy. injection Hy as <-. reflexivity. }
    rewrite E2. cbn [bind].
    match goal with |- context [mapM ?f cr] => destruct (@mapM_total _ _ f cr) as (cs & E3); [|assert (K3 : map fst cs = map (fun e => bname lams (fst (fst (fst e)))) cr)] end.
    { intros [[[n k] i] j] He. destruct (@coupling_cases a cr n k i j Hsd Ecr He) as (-> & [(-> & -> & ->)|(-> & -> & ->)]); destruct lams.
      - destruct (Get n_lu11 "lu11" _ ltac:(mem) ltac:(mem)) as (tn & D & _). unfold lookup_amp. change (bname true (str "u11")) with (str "lu11"). rewrite D. cbn [bind]. eauto.
      - destruct (Get n_u11 "u11" _ ltac:(mem) ltac:(mem)) as (tn & D & _). unfold lookup_amp. change (bname false (str "u11")) with (str "u11"). rewrite D. cbn [bind]. eauto.
      - destruct (Get n_lu12 "lu12" _ ltac:(mem) ltac:(mem)) as (tn & D & _). unfold lookup_amp. change (bname true (str "u12")) with (str "lu12"). rewrite D. cbn [bind]. eauto.
      - destruct (Get n_u12 "u12" _ ltac:(mem) ltac:(mem)) as (tn & D & _). unfold lookup_amp. change (bname false (str "u12")) with (str "u12"). rewrite D. cbn [bind]. eauto. }
    { eapply keys_result; [|exact E3]. intros [[[n k] i] j] y Hy. cbv beta iota in Hy. cbn [fst]. destruct (lookup_amp (amps lams) (bname lams n)); [|discriminate]. cbn [bind] in Hy. injection Hy as <-. reflexivity. }
    rewrite E3. cbn [bind]. eexists. split; [reflexivity|]. rewrite !map_app, K1, K2, K3. reflexivity.
  Qed.

  Ltac name_cases Hx En := repeat (destruct Hx as [Hx|Hx]; [injection Hx as <- <- <-; first [discriminate En|idtac]|]); try destruct Hx.
  Lemma from_rebcc_block lams a (amps : bool -> dict pystr (arr F)) eB u x nm comb : singles_doubles a -> restricted_amplitudes sz amps eB ->
    from_rebcc F lams a (amps lams) = Ok u -> map fst u = amplitude_names lams a ->
    In (x, (nm, comb)) (block_names lams) -> In (str nm) (amplitude_names lams a) ->
    exists v cs, amplitude u nm comb = Some v /\ kinds_of x = Some cs /\ of_kinds F sz cs v.
  Proof.
    intros Hsd (HB & HK) Hu Hk Hx Hn. rewrite <- Hk in Hn. destruct (dget_key_some _ _ Hn) as (w & Dw). clear Hk Hn.
    destruct closed_sizes as (S4 & S6 & S5 & S7).
    assert (Get : forall y n cs tn, In (y, n) (plain_names lams) -> In (y, cs) spatial -> dget pystr_eq_dec (str n) (amps lams) = Some tn -> of_kinds F sz cs tn).
    { intros y n cs tn Hy Hc D. pose proof (HB _ _ _ Hy) as E. rewrite D in E. exact (HK _ _ _ Hc E). }
    unfold amplitude. rewrite Dw. apply dget_in' in Dw. pose proof (@from_rebcc_inv F lams a (amps lams) u _ _ Hsd Hu Dw) as I. clear HB HK Hu Dw.
    destruct I as [(En & tn & bs & Dt & Hbs & ->)|[(En & tn & bs & Dt & Hbs & ->)|[(r & tn & En & Dt & ->)|(r & tn & En & Dt & ->)]]].
    - destruct lams; cbv [block_names In] in Hx; name_cases Hx En.
      1,2: destruct (Get n_l1 "l1" [1; 0] tn ltac:(mem) ltac:(mem) Dt) as (W & S).
      3,4: destruct (Get n_t1 "t1" [0; 1] tn ltac:(mem) ltac:(mem) Dt) as (W & S).
      all: rewrite (@blocks_singles F tn _ _ W S) in Hbs; injection Hbs as <-; exists tn; eexists; (split; [reflexivity|]); (split; [reflexivity|]); (split; [exact W|]); rewrite S; cbn [map]; rewrite ?S4, ?S5, ?S6, ?S7; reflexivity.
    - destruct lams; cbv [block_names In] in Hx; name_cases Hx En.
      1,2,3: destruct (Get n_l2 "l2" [1; 1; 0; 0] tn ltac:(mem) ltac:(mem) Dt) as (W & S).
      4,5,6: destruct (Get n_t2 "t2" [0; 0; 1; 1] tn ltac:(mem) ltac:(mem) Dt) as (W & S).
      all: destruct (@blocks_doubles F (two zero) tn _ _ W S) as (y & Y & Wy & Sy & _); rewrite Y in Hbs; injection Hbs as <-.
      1,3,4,6: exists y; eexists; (split; [reflexivity|]); (split; [reflexivity|]); (split; [exact Wy|]); rewrite Sy, S; cbn [map]; rewrite ?S4, ?S5, ?S6, ?S7; reflexivity.
      all: exists tn; eexists; (split; [reflexivity|]); (split; [reflexivity|]); (split; [exact W|]); rewrite S; cbn [map]; rewrite ?S4, ?S5, ?S6, ?S7; reflexivity.
    - destruct lams; cbv [block_names In] in Hx; name_cases Hx En; exists tn; eexists; (split; [reflexivity|]); (split; [reflexivity|]).
      + apply (Get n_ls1 "ls1" _ tn ltac:(mem) ltac:(mem) Dt).
      + apply (Get n_ls2 "ls2" _ tn ltac:(mem) ltac:(mem) Dt).
      + apply (Get n_s1 "s1" _ tn ltac:(mem) ltac:(mem) Dt).
      + apply (Get n_s2 "s2" _ tn ltac:(mem) ltac:(mem) Dt).
    - destruct lams; cbv [block_names In] in Hx; name_cases Hx En.
      1,2: destruct (Get n_lu11 "lu11" [3; 1; 0] tn ltac:(mem) ltac:(mem) Dt) as (W & S).
      3,4: destruct (Get n_lu12 "lu12" [3; 3; 1; 0] tn ltac:(mem) ltac:(mem) Dt) as (W & S).
      5,6: destruct (Get n_u11 "u11" [3; 0; 1] tn ltac:(mem) ltac:(mem) Dt) as (W & S).
      7,8: destruct (Get n_u12 "u12" [3; 3; 0; 1] tn ltac:(mem) ltac:(mem) Dt) as (W & S).
      all: exists tn; eexists; (split; [reflexivity|]); (split; [reflexivity|]); (split; [exact W|]); rewrite S; cbn [map]; rewrite ?S4, ?S5, ?S6, ?S7; reflexivity.
  Qed.
  End Restricted.

  (** * Unrestricted to general *)
  Section General.
  Variable sz : cls -> nat.
  Variable slices : nat -> nat -> list nat.
  Variable size : nat -> nat.
  Hypothesis Hsl : spin_slices sz slices size.

  Lemma singles_total lams nb unique bs (aa bb : arr F) :
    dget pystr_eq_dec (str "aa") bs = Some aa -> dget pystr_eq_dec (str "bb") bs = Some bb ->
    of_kinds F sz (repeat 3 nb ++ [skind lams true; skind (negb lams) true]) aa -> of_kinds F sz (repeat 3 nb ++ [skind lams false; skind (negb lams) false]) bb ->
    exists w, @general_amp F slices size (sz 3) unique nb 1 (gkey lams nb) bs = Ok w /\ of_kinds F sz (repeat 3 nb ++ (if lams then [1; 0] else [0; 1])) w.
  Proof.
    intros Da Db (Wa & Sa) (Wb & Sb). destruct (@parts slices size sz Hsl lams) as (P1 & P2).
    assert (Rep : forall n, map sz (repeat 3 n) = repeat (sz 3) n) by (intros n; induction n; cbn; [reflexivity|rewrite IHn; reflexivity]).
    destruct (@singles_ok F slices size (sz 3) unique nb (gkey lams nb) (k1 lams) (k2 lams) bs aa bb) as (r & R & W & S & _); try assumption.
    - unfold gkey. rewrite skipn_app, repeat_length, Nat.sub_diag, (skipn_all2 (repeat (chr_of "b") nb)) by (rewrite repeat_length; lia). destruct lams; reflexivity.
    - rewrite Sa, map_app, Rep. unfold block_shape. f_equal. cbn [map]. destruct (@len_slices slices size sz Hsl lams true) as (<- & <-). reflexivity.
    - rewrite Sb, map_app, Rep. unfold block_shape. f_equal. cbn [map]. destruct (@len_slices slices size sz Hsl lams false) as (<- & <-). reflexivity.
    - exists r. split; [exact R|]. split; [exact W|]. rewrite S, map_app, Rep. f_equal. destruct Hsl as (_ & _ & So & Sv & _). destruct lams; cbn [map k1 k2]; rewrite So, Sv; reflexivity.
  Qed.
  Lemma doubles_total (lams : bool) bs (aa ab bb : arr F) :
    dget pystr_eq_dec (str "aaaa") bs = Some aa -> dget pystr_eq_dec (str "abab") bs = Some ab -> dget pystr_eq_dec (str "bbbb") bs = Some bb ->
    of_kinds F sz [skind lams true; skind lams true; skind (negb lams) true; skind (negb lams) true] aa ->
    of_kinds F sz [skind lams true; skind lams false; skind (negb lams) true; skind (negb lams) false] ab ->
    of_kinds F sz [skind lams false; skind lams false; skind (negb lams) false; skind (negb lams) false] bb ->
    exists w, @general_amp F slices size (sz 3) true 0 2 (str (if lams then "vvoo" else "oovv")) bs = Ok w /\ of_kinds F sz (if lams then [1; 1; 0; 0] else [0; 0; 1; 1]) w.
  Proof.
    intros Da Db Dc (Wa & Sa) (Wb & Sb) (Wc & Sc). destruct (@parts slices size sz Hsl lams) as (P1 & P2).
    destruct (@doubles_ok F slices size (sz 3) true (k1 lams) (k2 lams) bs aa ab bb) as (r & R & W & S & _); try assumption; try reflexivity.
    - rewrite Sa. unfold block_shape. cbn [map]. destruct (@len_slices slices size sz Hsl lams true) as (<- & <-). reflexivity.
    - rewrite Sb. unfold block_shape. cbn [map]. destruct (@len_slices slices size sz Hsl lams true) as (<- & <-). destruct (@len_slices slices size sz Hsl lams false) as (<- & <-). reflexivity.
    - rewrite Sc. unfold block_shape. cbn [map]. destruct (@len_slices slices size sz Hsl lams false) as (<- & <-). reflexivity.
    - assert (Ek : str (if lams then "vvoo" else "oovv") = [k1 lams; k1 lams; k2 lams; k2 lams]) by (destruct lams; reflexivity).
      exists r. split; [rewrite Ek; exact R|]. split; [exact W|]. rewrite S. destruct Hsl as (_ & _ & So & Sv & _). destruct lams; cbn [map k1 k2]; rewrite So, Sv; reflexivity.
  Qed.

  Lemma spin_of (amps : dict pystr (uamp F)) nm c v : amplitude amps nm (Some c) = Some v -> exists bs, dget pystr_eq_dec (str nm) amps = Some (Spin F bs) /\ dget pystr_eq_dec (str c) bs = Some v.
  Proof. unfold amplitude. destruct (dget pystr_eq_dec (str nm) amps) as [[bs|]|]; try discriminate. intros H. exists bs. auto. Qed.
  Lemma whole_of (amps : dict pystr (uamp F)) nm v : amplitude amps nm None = Some v -> dget pystr_eq_dec (str nm) amps = Some (Whole F v).
  Proof. unfold amplitude. destruct (dget pystr_eq_dec (str nm) amps) as [[bs|v']|]; try discriminate. intros H. injection H as <-. reflexivity. Qed.

  Lemma from_uebcc_total lams a (amps : bool -> dict pystr (uamp F)) eB : singles_doubles a -> unrestricted_amplitudes sz amps eB ->
    (forall x nm, In (x, nm) (block_names lams) -> exists tn, eB x = Some tn) ->
    exists g, @from_uebcc F slices size (sz 3) lams a (amps lams) = Ok g /\ map fst g = amplitude_names lams a /\
      forall x nm w, In (x, nm) (plain_names lams) -> dget pystr_eq_dec (str nm) g = Some w -> exists cs, general_kinds x = Some cs /\ of_kinds F sz cs w.
  Proof.
    intros Hsd (HB & HK) Hall. pose proof Hsd as (fr & br & Efr & Hfr & Ebr & Hbr & _).
    assert (Get : forall x nm c cs, In (x, (nm, Some c)) (block_names lams) -> In (x, cs) spin_blocks -> exists bs v, dget pystr_eq_dec (str nm) (amps lams) = Some (Spin F bs) /\ dget pystr_eq_dec (str c) bs = Some v /\ of_kinds F sz cs v).
    { intros x nm c cs Hx Hc. destruct (Hall _ _ Hx) as (tn & E). pose proof (HB _ _ _ _ Hx) as E'. rewrite E in E'. destruct (spin_of _ _ _ (eq_sym E')) as (bs & D1 & D2). exists bs, tn. split; [exact D1|]. split; [exact D2|]. exact (HK _ _ _ Hc E). }
    assert (GetW : forall x nm cs, In (x, (nm, None)) (block_names lams) -> In (x, cs) spin_blocks -> exists v, dget pystr_eq_dec (str nm) (amps lams) = Some (Whole F v) /\ of_kinds F sz cs v).
    { intros x nm cs Hx Hc. destruct (Hall _ _ Hx) as (tn & E). pose proof (HB _ _ _ _ Hx) as E'. rewrite E in E'. exists tn. split; [exact (whole_of _ _ (eq_sym E'))|exact (HK _ _ _ Hc E)]. }
    assert (T1 : exists bs w, dget pystr_eq_dec (fname lams (str "t1")) (amps lams) = Some (Spin F bs) /\ @general_amp F slices size (sz 3) true 0 1 (gkey lams 0) bs = Ok w /\ of_kinds F sz (if lams then [1; 0] else [0; 1]) w).
    { destruct lams.
      - destruct (Get n_l1'aa "l1" "aa" _ ltac:(mem) ltac:(mem)) as (bs & aa & D & Da & Ka). destruct (Get n_l1'bb "l1" "bb" _ ltac:(mem) ltac:(mem)) as (bs' & bb & D' & Db & Kb).
        rewrite D in D'. injection D' as <-. destruct (@singles_total true 0 true bs aa bb Da Db Ka Kb) as (w & W1 & W2). exists bs, w. auto.
      - destruct (Get n_t1'aa "t1" "aa" _ ltac:(mem) ltac:(mem)) as (bs & aa & D & Da & Ka). destruct (Get n_t1'bb "t1" "bb" _ ltac:(mem) ltac:(mem)) as (bs' & bb & D' & Db & Kb).
        rewrite D in D'. injection D' as <-. destruct (@singles_total false 0 true bs aa bb Da Db Ka Kb) as (w & W1 & W2). exists bs, w. auto. }
    assert (T2 : exists bs w, dget pystr_eq_dec (fname lams (str "t2")) (amps lams) = Some (Spin F bs) /\ @general_amp F slices size (sz 3) true 0 2 (str (if lams then "vvoo" else "oovv")) bs = Ok w /\ of_kinds F sz (if lams then [1; 1; 0; 0] else [0; 0; 1; 1]) w).
    { destruct lams.
      - destruct (Get n_l2'aaaa "l2" "aaaa" _ ltac:(mem) ltac:(mem)) as (bs & aa & D & Da & Ka). destruct (Get n_l2'abab "l2" "abab" _ ltac:(mem) ltac:(mem)) as (bs' & ab & D' & Db & Kb). destruct (Get n_l2'bbbb "l2" "bbbb" _ ltac:(mem) ltac:(mem)) as (bs'' & bb & D'' & Dc & Kc).
        rewrite D in D'. injection D' as <-. rewrite D in D''. injection D'' as <-. destruct (@doubles_total true bs aa ab bb Da Db Dc Ka Kb Kc) as (w & W1 & W2). exists bs, w. auto.
      - destruct (Get n_t2'aaaa "t2" "aaaa" _ ltac:(mem) ltac:(mem)) as (bs & aa & D & Da & Ka). destruct (Get n_t2'abab "t2" "abab" _ ltac:(mem) ltac:(mem)) as (bs' & ab & D' & Db & Kb). destruct (Get n_t2'bbbb "t2" "bbbb" _ ltac:(mem) ltac:(mem)) as (bs'' & bb & D'' & Dc & Kc).
        rewrite D in D'. injection D' as <-. rewrite D in D''. injection D'' as <-. destruct (@doubles_total false bs aa ab bb Da Db Dc Ka Kb Kc) as (w & W1 & W2). exists bs, w. auto. }
    assert (U : forall j, j = 1 \/ j = 2 -> exists bs w, dget pystr_eq_dec (bname lams (str "u" ++ dec 1 ++ dec j)%list) (amps lams) = Some (Spin F bs) /\ @general_amp F slices size (sz 3) lams j 1 (gkey lams j) bs = Ok w /\ of_kinds F sz (repeat 3 j ++ (if lams then [1; 0] else [0; 1]))%list w).
    { intros j [-> | ->]; destruct lams.
      - destruct (Get n_lu11'aa "lu11" "aa" _ ltac:(mem) ltac:(mem)) as (bs & aa & D & Da & Ka). destruct (Get n_lu11'bb "lu11" "bb" _ ltac:(mem) ltac:(mem)) as (bs' & bb & D' & Db & Kb).
        rewrite D in D'. injection D' as <-. destruct (@singles_total true 1 true bs aa bb Da Db Ka Kb) as (w & W1 & W2). exists bs, w. auto.
      - destruct (Get n_u11'aa "u11" "aa" _ ltac:(mem) ltac:(mem)) as (bs & aa & D & Da & Ka). destruct (Get n_u11'bb "u11" "bb" _ ltac:(mem) ltac:(mem)) as (bs' & bb & D' & Db & Kb).
        rewrite D in D'. injection D' as <-. destruct (@singles_total false 1 false bs aa bb Da Db Ka Kb) as (w & W1 & W2). exists bs, w. auto.
      - destruct (Get n_lu12'aa "lu12" "aa" _ ltac:(mem) ltac:(mem)) as (bs & aa & D & Da & Ka). destruct (Get n_lu12'bb "lu12" "bb" _ ltac:(mem) ltac:(mem)) as (bs' & bb & D' & Db & Kb).
        rewrite D in D'. injection D' as <-. destruct (@singles_total true 2 true bs aa bb Da Db Ka Kb) as (w & W1 & W2). exists bs, w. auto.
      - destruct (Get n_u12'aa "u12" "aa" _ ltac:(mem) ltac:(mem)) as (bs & aa & D & Da & Ka). destruct (Get n_u12'bb "u12" "bb" _ ltac:(mem) ltac:(mem)) as (bs' & bb & D' & Db & Kb).
        rewrite D in D'. injection D' as <-. destruct (@singles_total false 2 false bs aa bb Da Db Ka Kb) as (w & W1 & W2). exists bs, w. auto. }
    assert (Ok_ : exists g, @from_uebcc F slices size (sz 3) lams a (amps lams) = Ok g /\ map fst g = amplitude_names lams a).
    { unfold from_uebcc, amplitude_names. rewrite Efr, Ebr.
      destruct (coupling_wf a (w := Wt) (or_introl eq_refl)) as (cr & Ecr & _). rewrite Ecr. cbn [bind].
      match goal with |- context [mapM ?f fr] => destruct (@mapM_total _ _ f fr) as (fs & E1); [|assert (K1 : map fst fs = map (fun e => fname lams (fst (fst e))) fr)] end.
      { intros e He. destruct (Hfr _ He) as [<-|[<-|[]]].
        - destruct T1 as (bs & w & D & G & _). exists (fname lams (str "t1"), w). cbv beta iota. unfold lookup_amp. rewrite D. cbn [bind as_spin]. destruct lams; (etransitivity; [|reflexivity]); change (gkey true 0) with (str "vo") in G; change (gkey false 0) with (str "ov") in G;
          [change (skipn 1 (str "ov") ++ firstn 1 (str "ov"))%list with (str "vo")|]; rewrite G; reflexivity.
        - destruct T2 as (bs & w & D & G & _). exists (fname lams (str "t2"), w). cbv beta iota. unfold lookup_amp. rewrite D. cbn [bind as_spin]. destruct lams;
          [change (skipn 2 (str "oovv") ++ firstn 2 (str "oovv"))%list with (str "vvoo")|]; rewrite G; reflexivity. }
      { eapply keys_result; [|exact E1]. intros [[n k] r] y Hy. cbv beta iota in Hy. cbn [fst]. destruct (lookup_amp (amps lams) (fname lams n)); [|discriminate]. cbn [bind] in Hy.
        destruct (as_spin a0); [|discriminate]. cbn [bind] in Hy. match type of Hy with context [@general_amp ?a1 ?a2 ?a3 ?a4 ?a5 ?a6 ?a7 ?a8 ?a9] => destruct (@general_amp a1 a2 a3 a4 a5 a6 a7 a8 a9) end; [|discriminate]. cbn [bind] in Hy. injection Hy as <-. reflexivity. }
      rewrite E1. cbn [bind].
      match goal with |- context [mapM ?f br] => destruct (@mapM_total _ _ f br) as (bs & E2); [|assert (K2 : map fst bs = map (fun e => bname lams (fst (fst e))) br)] end.
      { intros e He. destruct (Hbr _ He) as [<-|[<-|[]]]; destruct lams.
        - destruct (GetW n_ls1 "ls1" _ ltac:(mem) ltac:(mem)) as (tn & D & _). unfold lookup_amp. change (bname true (str "s1")) with (str "ls1"). rewrite D. cbn [bind as_plain]. eauto.
        - destruct (GetW n_s1 "s1" _ ltac:(mem) ltac:(mem)) as (tn & D & _). unfold lookup_amp. change (bname false (str "s1")) with (str "s1"). rewrite D. cbn [bind as_plain]. eauto.
        - destruct (GetW n_ls2 "ls2" _ ltac:(mem) ltac:(mem)) as (tn & D & _). unfold lookup_amp. change (bname true (str "s2")) with (str "ls2"). rewrite D. cbn [bind as_plain]. eauto.
        - destruct (GetW n_s2 "s2" _ ltac:(mem) ltac:(mem)) as (tn & D & _). unfold lookup_amp. change (bname false (str "s2")) with (str "s2"). rewrite D. cbn [bind as_plain]. eauto. }
      { eapply keys_result; [|exact E2]. intros [[n k] r] y Hy. cbv beta iota in Hy. cbn [fst]. destruct (lookup_amp (amps lams) (bname lams n)); [|discriminate]. cbn [bind] in Hy. destruct (as_plain a0); [|discriminate]. cbn [bind] in Hy. injection Hy as <-. reflexivity. }
      rewrite E2. cbn [bind].
      match goal with |- context [mapM ?f cr] => destruct (@mapM_total _ _ f cr) as (cs & E3); [|assert (K3 : map fst cs = map (fun e => bname lams (fst (fst (fst e)))) cr)] end.
      { intros [[[n k] i] j] He. destruct (@coupling_cases a cr n k i j Hsd Ecr He) as (-> & [(-> & -> & ->)|(-> & -> & ->)]).
        - destruct (U 1 (or_introl eq_refl)) as (b & w & D & G & _). exists (bname lams (str "u11"), w). cbv beta iota. unfold lookup_amp. change (str "u" ++ dec 1 ++ dec 1)%list with (str "u11") in D. rewrite D. cbn [bind as_spin].
          destruct lams; [change (firstn 1 (str "bov") ++ skipn (1 + 1) (str "bov") ++ slice 1 (1 + 1) (str "bov"))%list with (gkey true 1)|change (str "bov") with (gkey false 1)]; rewrite G; reflexivity.
        - destruct (U 2 (or_intror eq_refl)) as (b & w & D & G & _). exists (bname lams (str "u12"), w). cbv beta iota. unfold lookup_amp. change (str "u" ++ dec 1 ++ dec 2)%list with (str "u12") in D. rewrite D. cbn [bind as_spin].
          destruct lams; [change (firstn 2 (str "bbov") ++ skipn (2 + 1) (str "bbov") ++ slice 2 (2 + 1) (str "bbov"))%list with (gkey true 2)|change (str "bbov") with (gkey false 2)]; rewrite G; reflexivity. }
      { eapply keys_result; [|exact E3]. intros [[[n k] i] j] y Hy. cbv beta iota in Hy. cbn [fst]. destruct (lookup_amp (amps lams) (bname lams n)); [|discriminate]. cbn [bind] in Hy.
        destruct (as_spin a0); [|discriminate]. cbn [bind] in Hy. match type of Hy with context [@general_amp ?a1 ?a2 ?a3 ?a4 ?a5 ?a6 ?a7 ?a8 ?a9] => destruct (@general_amp a1 a2 a3 a4 a5 a6 a7 a8 a9) end; [|discriminate]. cbn [bind] in Hy. injection Hy as <-. reflexivity. }
      rewrite E3. cbn [bind]. eexists. split; [reflexivity|]. rewrite !map_app, K1, K2, K3. reflexivity. }
    destruct Ok_ as (g & Hg & Kg). exists g. split; [exact Hg|]. split; [exact Kg|]. intros x nm w Hx Dw. apply dget_in' in Dw.
    destruct (@from_uebcc_inv F slices size (sz 3) lams a (amps lams) g _ _ Hsd Hg Dw) as [(En & bs & D & G)|[(En & bs & D & G)|[(r & En & D)|(j & bs & Hj & En & D & G)]]].
    - destruct T1 as (bs' & w' & D' & G' & K). rewrite En in D. rewrite D in D'. injection D' as <-. rewrite G in G'. injection G' as <-. clear Get GetW T2 U HB Hall.
      destruct lams; cbv [plain_names In] in Hx; repeat (destruct Hx as [Hx|Hx]; [injection Hx as <- <-; first [discriminate En|idtac]|]); try destruct Hx; eexists; (split; [reflexivity|exact K]).
    - destruct T2 as (bs' & w' & D' & G' & K). rewrite En in D. rewrite D in D'. injection D' as <-. rewrite G in G'. injection G' as <-. clear Get GetW T1 U HB Hall.
      destruct lams; cbv [plain_names In] in Hx; repeat (destruct Hx as [Hx|Hx]; [injection Hx as <- <-; first [discriminate En|idtac]|]); try destruct Hx; eexists; (split; [reflexivity|exact K]).
    - assert (W : forall cs, In (x, (nm, None)) (block_names lams) -> In (x, cs) spin_blocks -> of_kinds F sz cs w).
      { intros cs I1 I2. destruct (GetW _ _ _ I1 I2) as (v & Dv & K). rewrite D in Dv. injection Dv as <-. exact K. }
      clear Get GetW T1 T2 U HB Hall. destruct lams; cbv [plain_names In] in Hx; repeat (destruct Hx as [Hx|Hx]; [injection Hx as <- <-; first [discriminate En|idtac]|]); try destruct Hx; eexists; (split; [reflexivity|apply W; mem]).
    - destruct (U j Hj) as (bs' & w' & D' & G' & K). rewrite <- En in D'. rewrite D in D'. injection D' as <-. rewrite G in G'. injection G' as <-. clear Get GetW T1 T2 U HB Hall.
      destruct lams; cbv [plain_names In] in Hx; (destruct Hj as [-> | ->]); repeat (destruct Hx as [Hx|Hx]; [injection Hx as <- <-; first [discriminate En|idtac]|]); try destruct Hx; eexists; (split; [reflexivity|exact K]).
  Qed.
  End General.
End Total.
