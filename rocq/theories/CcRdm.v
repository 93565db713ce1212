(** Lemmas about density matrices and the coherent-state shift. *)
From Coq Require Import String Permutation Field.
From Verif Require Import Base ListAux Alg ArrModel ArrProofs PermModel TensorModel TensorSpec EinsumModel SpaceModel AnsatzModel VecModel VecSpec
  CcModel CcSpec CcProofs CcThms.
Set Implicit Arguments.
Local Open Scope string_scope.
Local Open Scope list_scope.
Local Open Scope nat_scope.

Section Rdm.
  Variable F : fld.
  Local Open Scope rng_scope.
  Local Open Scope py_scope.
  Add Field Ffield5 : (fth F).

  Lemma transpose_get (a : arr F) axes : Permutation (seq 0 (length (shp a))) axes ->
    exists b, transpose 0 a axes = Ok b /\ wf b /\ shp b = map (fun k => nth k (shp a) 0%nat) axes /\
      forall idx, inb (shp b) idx -> aget 0 b idx = aget 0 a (unperm axes idx).
  Proof.
    intros H. eexists. split; [apply transpose_ok, H|]. split; [apply tab_wf|]. split; [reflexivity|]. intros idx Hi.
    rewrite (@aget_tab F 0) by exact Hi. reflexivity.
  Qed.
  Lemma twice_half (x : F) : @two F <> 0 -> (x + x) * half = x.
  Proof. intros H. unfold half, two in *. field. exact H. Qed.

  Definition is_half_sum (axes : list nat) (dm r : arr F) : Prop := wf r /\ shp r = shp dm /\
    forall idx, inb (shp dm) idx -> aget 0 r idx = (aget 0 dm idx + aget 0 dm (unperm axes idx)) * half.
  Lemma half_sum (a : arr F) axes : wf a -> Permutation (seq 0 (length (shp a))) axes -> map (fun k => nth k (shp a) 0%nat) axes = shp a ->
    exists t s, transpose 0 a axes = Ok t /\ plus_arr a t = Ok s /\ is_half_sum axes a (scale F half s).
  Proof.
    intros W P S. destruct (transpose_get a P) as (t & E & Wt' & St & Gt). rewrite S in St.
    destruct (@zip_ok F radd a t W Wt' ltac:(congruence)) as (s & Es & Ws & Ss & Gs). exists t, s. split; [exact E|]. split; [exact Es|].
    split; [apply scale_wf, Ws|]. split; [exact Ss|]. intros idx Hi. rewrite scale_get by (try assumption; rewrite Ss; exact Hi). rewrite (Gs idx Hi), Gt by (rewrite St; exact Hi). reflexivity.
  Qed.

  (** ** One-particle. *)
  Lemma inb2 n m idx : inb [n; m] idx <-> exists i j, idx = [i; j] /\ (i < n)%nat /\ (j < m)%nat.
  Proof.
    rewrite inb_iff. split.
    - intros [L H]. destruct idx as [|i [|j [|]]]; try discriminate. exists i, j. split; [reflexivity|]. pose proof (H 0%nat ltac:(cbn; lia)). pose proof (H 1%nat ltac:(cbn; lia)). cbn in *. tauto.
    - intros (i & j & -> & Hi & Hj). split; [reflexivity|]. intros [|[|k]] Hk; cbn in *; lia.
  Qed.
  Lemma inb4 a b c d idx : inb [a; b; c; d] idx <-> exists i j k l, idx = [i; j; k; l] /\ (i < a)%nat /\ (j < b)%nat /\ (k < c)%nat /\ (l < d)%nat.
  Proof.
    rewrite inb_iff. split.
    - intros [L H]. destruct idx as [|i [|j [|k [|l [|]]]]]; try discriminate. exists i, j, k, l. split; [reflexivity|].
      pose proof (H 0%nat ltac:(cbn; lia)). pose proof (H 1%nat ltac:(cbn; lia)). pose proof (H 2%nat ltac:(cbn; lia)). pose proof (H 3%nat ltac:(cbn; lia)). cbn in *. tauto.
    - intros (i & j & k & l & -> & Hi & Hj & Hk & Hl). split; [reflexivity|]. intros [|[|[|[|q]]]] Hq; cbn in *; lia.
  Qed.

  Lemma perm4 (axes : list nat) : is_perm 4 axes = true -> Permutation (seq 0 4) axes.
  Proof. apply is_perm_iff. Qed.

  Lemma herm1_ok (dm : arr F) n : wf dm -> shp dm = [n; n] ->
    exists r, hermitise1 dm = Ok r /\ wf r /\ shp r = [n; n] /\
      forall i j, (i < n)%nat -> (j < n)%nat -> aget 0 r [i; j] = (aget 0 dm [i; j] + aget 0 dm [j; i]) * half.
  Proof.
    intros W S. destruct (@half_sum dm [1%nat; 0%nat] W) as (t & s & E1 & E2 & W' & S' & G).
    - rewrite S. cbn [length]. apply (proj1 (is_perm_iff 2 [1; 0]%nat)). reflexivity.
    - rewrite S. reflexivity.
    - unfold hermitise1, reverse_axes. rewrite S. change (rev (seq 0 (length [n; n]))) with [1%nat; 0%nat]. rewrite E1. cbn [bind]. rewrite E2. cbn [bind].
      eexists. split; [reflexivity|]. split; [exact W'|]. split; [congruence|]. intros i j Hi Hj.
      rewrite G by (rewrite S; apply inb2; exists i, j; tauto). reflexivity.
  Qed.
  Lemma herm1_spec (dm : arr F) n : @two F <> 0 -> wf dm -> shp dm = [n; n] ->
    exists r, hermitise1 dm = Ok r /\ wf r /\ shp r = [n; n] /\
      (forall i j, (i < n)%nat -> (j < n)%nat -> aget 0 r [i; j] = aget 0 r [j; i]) /\
      (forall i, (i < n)%nat -> aget 0 r [i; i] = aget 0 dm [i; i]) /\
      hermitise1 r = Ok r /\
      ((forall i j, (i < n)%nat -> (j < n)%nat -> aget 0 dm [i; j] = aget 0 dm [j; i]) -> r = dm).
  Proof.
    intros H2 W S. destruct (@herm1_ok dm n W S) as (r & E & Wr & Sr & G). exists r. split; [exact E|]. split; [exact Wr|]. split; [exact Sr|].
    assert (SY : forall i j, (i < n)%nat -> (j < n)%nat -> aget 0 r [i; j] = aget 0 r [j; i]) by (intros i j Hi Hj; rewrite !G by assumption; ring).
    assert (FX : forall x y : arr F, wf x -> shp x = [n; n] -> hermitise1 x = Ok y -> (forall i j, (i < n)%nat -> (j < n)%nat -> aget 0 x [i; j] = aget 0 x [j; i]) -> y = x).
    { intros x y Wx Sx Ey Sym. destruct (@herm1_ok x n Wx Sx) as (y' & Ey' & Wy & Sy & Gy). rewrite Ey in Ey'. apply AnsatzRanks.Ok_inj in Ey'. subst y'.
      apply (@arr_ext F 0); try assumption; [congruence|]. intros idx Hi. rewrite Sy in Hi. apply inb2 in Hi. destruct Hi as (i & j & -> & Hi & Hj).
      rewrite (Gy i j Hi Hj), <- (Sym i j Hi Hj). apply twice_half, H2. }
    split; [exact SY|]. split; [|split].
    - intros i Hi. rewrite (G i i Hi Hi). apply twice_half, H2.
    - destruct (@herm1_ok r n Wr Sr) as (y & Ey & _). rewrite Ey. f_equal. apply (FX r y Wr Sr Ey SY).
    - intros Sym. apply (FX dm r W S E Sym).
  Qed.

  (** ** Two-particle. *)
  Lemma average_ok (dm : arr F) axes : wf dm -> length (shp dm) = 4%nat -> is_perm 4 axes = true -> map (fun k => nth k (shp dm) 0%nat) axes = shp dm ->
    exists r, average axes dm = Ok r /\ is_half_sum axes dm r.
  Proof.
    intros W L P S. apply perm4 in P. rewrite <- L in P.
    assert (E0 : transpose 0 dm [0; 1; 2; 3]%nat = Ok dm).
    { destruct (transpose_get dm (axes := [0; 1; 2; 3]%nat)) as (b & E & Wb & Sb & Gb); [rewrite L; apply Permutation_refl|].
      assert (SD : exists a b c d, shp dm = [a; b; c; d]). { destruct (shp dm) as [|a [|b' [|c [|d [|]]]]]; try discriminate. exists a, b', c, d. reflexivity. }
      destruct SD as (x1 & x2 & x3 & x4 & SD). rewrite E. f_equal. rewrite SD in Sb. cbn in Sb.
      apply (@arr_ext F 0); try assumption; [congruence|]. intros idx Hi. rewrite (Gb idx Hi). rewrite Sb in Hi. apply inb4 in Hi. destruct Hi as (i & j & k & l & -> & _). reflexivity. }
    destruct (@half_sum dm axes W P S) as (t & s & E1 & E2 & H). unfold average. rewrite E0. cbn [bind]. rewrite E1. cbn [bind]. rewrite E2. cbn [bind]. eexists. split; [reflexivity|exact H].
  Qed.

  Lemma average_pair (dm : arr F) n : wf dm -> shp dm = [n; n; n; n] -> exists r, average [2; 3; 0; 1]%nat dm = Ok r /\ wf r /\ shp r = [n; n; n; n] /\
    forall i j k l, (i < n)%nat -> (j < n)%nat -> (k < n)%nat -> (l < n)%nat -> aget 0 r [i; j; k; l] = (aget 0 dm [i; j; k; l] + aget 0 dm [k; l; i; j]) * half.
  Proof.
    intros W S. destruct (@average_ok dm [2; 3; 0; 1]%nat W) as (r & E & Wr & Sr & G); [rewrite S; reflexivity|reflexivity|rewrite S; reflexivity|].
    exists r. split; [exact E|]. split; [exact Wr|]. split; [congruence|]. intros i j k l Hi Hj Hk Hl. rewrite G by (rewrite S; apply inb4; exists i, j, k, l; tauto). reflexivity.
  Qed.
  Lemma average_braket (dm : arr F) n m : wf dm -> shp dm = [n; n; m; m] -> exists r, average [1; 0; 3; 2]%nat dm = Ok r /\ wf r /\ shp r = [n; n; m; m] /\
    forall i j k l, (i < n)%nat -> (j < n)%nat -> (k < m)%nat -> (l < m)%nat -> aget 0 r [i; j; k; l] = (aget 0 dm [i; j; k; l] + aget 0 dm [j; i; l; k]) * half.
  Proof.
    intros W S. destruct (@average_ok dm [1; 0; 3; 2]%nat W) as (r & E & Wr & Sr & G); [rewrite S; reflexivity|reflexivity|rewrite S; reflexivity|].
    exists r. split; [exact E|]. split; [exact Wr|]. split; [congruence|]. intros i j k l Hi Hj Hk Hl. rewrite G by (rewrite S; apply inb4; exists i, j, k, l; tauto). reflexivity.
  Qed.
  Lemma herm2_ok (dm : arr F) n : wf dm -> shp dm = [n; n; n; n] -> exists r, hermitise2 dm = Ok r /\ wf r /\ shp r = [n; n; n; n] /\
    forall i j k l, (i < n)%nat -> (j < n)%nat -> (k < n)%nat -> (l < n)%nat ->
      aget 0 r [i; j; k; l] = (aget 0 dm [i; j; k; l] + aget 0 dm [k; l; i; j] + aget 0 dm [j; i; l; k] + aget 0 dm [l; k; j; i]) * (half * half).
  Proof.
    intros W S. destruct (average_pair W S) as (x & Ex & Wx & Sx & Gx). destruct (average_braket Wx Sx) as (r & E & Wr & Sr & G).
    unfold hermitise2. rewrite Ex. cbn [bind]. exists r. split; [exact E|]. split; [exact Wr|]. split; [exact Sr|]. intros i j k l Hi Hj Hk Hl.
    rewrite G by assumption. rewrite !Gx by assumption. ring.
  Qed.
  Lemma herm2_spec (dm : arr F) n : @two F <> 0 -> wf dm -> shp dm = [n; n; n; n] ->
    exists r, hermitise2 dm = Ok r /\ wf r /\ shp r = [n; n; n; n] /\ exchange_symmetric n r /\ braket_symmetric n n r /\ hermitise2 r = Ok r /\
      (exchange_symmetric n dm -> braket_symmetric n n dm -> r = dm).
  Proof.
    intros H2 W S. destruct (herm2_ok W S) as (r & E & Wr & Sr & G). exists r. split; [exact E|]. split; [exact Wr|]. split; [exact Sr|].
    assert (X : exchange_symmetric n r) by (intros i j k l Hi Hj Hk Hl; rewrite !G by assumption; ring).
    assert (B : braket_symmetric n n r) by (intros i j k l Hi Hj Hk Hl; rewrite !G by assumption; ring).
    assert (FX : forall x y : arr F, wf x -> shp x = [n; n; n; n] -> hermitise2 x = Ok y -> exchange_symmetric n x -> braket_symmetric n n x -> y = x).
    { intros x y Wx Sx Ey Xx Bx. destruct (herm2_ok Wx Sx) as (y' & Ey' & Wy & Sy & Gy). rewrite Ey in Ey'. apply AnsatzRanks.Ok_inj in Ey'. subst y'.
      apply (@arr_ext F 0); try assumption; [congruence|]. intros idx Hi. rewrite Sy in Hi. apply inb4 in Hi. destruct Hi as (i & j & k & l & -> & Hi & Hj & Hk & Hl).
      rewrite (Gy i j k l) by assumption. rewrite (Xx i j k l) by assumption. rewrite (Bx i j k l) by assumption.
      rewrite (Bx k l i j) by assumption. rewrite (Xx i j k l) by assumption. unfold half, two in *. field. exact H2. }
    split; [exact X|]. split; [exact B|]. split.
    - destruct (herm2_ok Wr Sr) as (y & Ey & _). rewrite Ey. f_equal. apply (FX r y Wr Sr Ey X B).
    - intros Xd Bd. apply (FX dm r W S E Xd Bd).
  Qed.
  Lemma u_herm2_spec (aaaa aabb bbbb : arr F) n m : @two F <> 0 -> wf aaaa -> wf aabb -> wf bbbb -> shp aaaa = [n; n; n; n] -> shp aabb = [n; n; m; m] -> shp bbbb = [m; m; m; m] ->
    exists x y z, u_hermitise2 aaaa aabb bbbb = Ok (x, y, z) /\ exchange_symmetric n x /\ braket_symmetric n n x /\ shp y = [n; n; m; m] /\ braket_symmetric n m y /\
      exchange_symmetric m z /\ braket_symmetric m m z /\ u_hermitise2 x y z = Ok (x, y, z).
  Proof.
    intros H2 W1 W2 W3 S1 S2 S3. destruct (herm2_spec H2 W1 S1) as (x & Ex & Wx & Sx & X1 & X2 & X3 & _). destruct (herm2_spec H2 W3 S3) as (z & Ez & Wz & Sz & Z1 & Z2 & Z3 & _).
    destruct (average_braket W2 S2) as (y & Ey & Wy & Sy & Gy). exists x, y, z.
    assert (Y : braket_symmetric n m y) by (intros i j k l Hi Hj Hk Hl; rewrite !Gy by assumption; ring).
    assert (YY : average [1; 0; 3; 2]%nat y = Ok y).
    { destruct (average_braket Wy Sy) as (y' & Ey' & Wy' & Sy' & Gy'). rewrite Ey'. f_equal. apply (@arr_ext F 0); try assumption; [congruence|].
      intros idx Hi. rewrite Sy' in Hi. apply inb4 in Hi. destruct Hi as (i & j & k & l & -> & Hi & Hj & Hk & Hl). rewrite (Gy' i j k l) by assumption. rewrite (Y i j k l) by assumption. apply twice_half, H2. }
    unfold u_hermitise2. rewrite Ex. cbn [bind]. rewrite Ey. cbn [bind]. rewrite Ez. cbn [bind]. split; [reflexivity|]. rewrite X3. cbn [bind]. rewrite YY. cbn [bind]. rewrite Z3. tauto.
  Qed.

  (** ** Electron-boson. *)
  Lemma inb3 a b c idx : inb [a; b; c] idx <-> exists i j k, idx = [i; j; k] /\ (i < a)%nat /\ (j < b)%nat /\ (k < c)%nat.
  Proof.
    rewrite inb_iff. split.
    - intros [L H]. destruct idx as [|i [|j [|k [|]]]]; try discriminate. exists i, j, k. split; [reflexivity|].
      pose proof (H 0%nat ltac:(cbn; lia)). pose proof (H 1%nat ltac:(cbn; lia)). pose proof (H 2%nat ltac:(cbn; lia)). cbn in *. tauto.
    - intros (i & j & k & -> & Hi & Hj & Hk). split; [reflexivity|]. intros [|[|[|q]]] Hq; cbn in *; lia.
  Qed.
  Lemma eb_ok (c d : arr F) b n : wf c -> wf d -> shp c = [b; n; n] -> shp d = [b; n; n] ->
    exists x y, hermitise_eb (c, d) = Ok (x, y) /\ wf x /\ wf y /\ shp x = [b; n; n] /\ shp y = [b; n; n] /\
      forall I i j, (I < b)%nat -> (i < n)%nat -> (j < n)%nat -> aget 0 x [I; i; j] = (aget 0 c [I; i; j] + aget 0 d [I; j; i]) * half /\ aget 0 y [I; i; j] = (aget 0 d [I; i; j] + aget 0 c [I; j; i]) * half.
  Proof.
    intros Wc Wd Sc Sd.
    assert (T : forall a : arr F, wf a -> shp a = [b; n; n] -> exists t, transpose 0 a [0; 2; 1]%nat = Ok t /\ wf t /\ shp t = [b; n; n] /\
      forall I i j, (I < b)%nat -> (i < n)%nat -> (j < n)%nat -> aget 0 t [I; i; j] = aget 0 a [I; j; i]).
    { intros a Wa Sa. destruct (transpose_get a (axes := [0; 2; 1]%nat)) as (t & E & Wt' & St & Gt); [rewrite Sa; apply (proj1 (is_perm_iff 3 [0; 2; 1]%nat)); reflexivity|].
      rewrite Sa in St. cbn in St. exists t. split; [exact E|]. split; [exact Wt'|]. split; [exact St|]. intros I i j HI Hi Hj. rewrite Gt by (rewrite St; apply inb3; exists I, i, j; tauto). reflexivity. }
    destruct (T d Wd Sd) as (t1 & E1 & W1 & S1 & G1). destruct (T c Wc Sc) as (t0 & E0 & W0 & S0 & G0).
    destruct (@zip_ok F radd c t1 Wc W1 ltac:(congruence)) as (p & Ep & Wp & Sp & Gp). destruct (@zip_ok F radd d t0 Wd W0 ltac:(congruence)) as (q & Eq & Wq & Sq & Gq).
    unfold hermitise_eb. cbn [fst snd]. rewrite E1. cbn [bind]. unfold plus_arr. rewrite Ep. cbn [bind]. rewrite E0. cbn [bind]. rewrite Eq. cbn [bind].
    eexists. eexists. split; [reflexivity|]. split; [apply scale_wf, Wp|]. split; [apply scale_wf, Wq|]. split; [cbn [shp scale]; congruence|]. split; [cbn [shp scale]; congruence|].
    intros I i j HI Hi Hj. assert (B : inb [b; n; n] [I; i; j]) by (apply inb3; exists I, i, j; tauto). split.
    - rewrite scale_get by (try assumption; rewrite Sp, Sc; exact B). rewrite Gp by (rewrite Sc; exact B). rewrite G1 by assumption. reflexivity.
    - rewrite scale_get by (try assumption; rewrite Sq, Sd; exact B). rewrite Gq by (rewrite Sd; exact B). rewrite G0 by assumption. reflexivity.
  Qed.
  Lemma eb_spec (c d : arr F) b n : @two F <> 0 -> wf c -> wf d -> shp c = [b; n; n] -> shp d = [b; n; n] ->
    exists x y, hermitise_eb (c, d) = Ok (x, y) /\ shp x = [b; n; n] /\ shp y = [b; n; n] /\
      (forall I i j, (I < b)%nat -> (i < n)%nat -> (j < n)%nat -> aget 0 y [I; i; j] = aget 0 x [I; j; i]) /\ hermitise_eb (x, y) = Ok (x, y).
  Proof.
    intros H2 Wc Wd Sc Sd. destruct (eb_ok Wc Wd Sc Sd) as (x & y & E & Wx & Wy & Sx & Sy & G). exists x, y. split; [exact E|]. split; [exact Sx|]. split; [exact Sy|].
    assert (Y : forall I i j, (I < b)%nat -> (i < n)%nat -> (j < n)%nat -> aget 0 y [I; i; j] = aget 0 x [I; j; i]).
    { intros I i j HI Hi Hj. rewrite (proj2 (G I i j HI Hi Hj)), (proj1 (G I j i HI Hj Hi)). ring. }
    split; [exact Y|]. destruct (eb_ok Wx Wy Sx Sy) as (x' & y' & E' & Wx' & Wy' & Sx' & Sy' & G'). rewrite E'. f_equal. f_equal.
    - apply (@arr_ext F 0); try assumption; [congruence|]. intros idx Hi. rewrite Sx' in Hi. apply inb3 in Hi. destruct Hi as (I & i & j & -> & HI & Hi & Hj).
      rewrite (proj1 (G' I i j HI Hi Hj)), (Y I j i) by assumption. apply twice_half, H2.
    - apply (@arr_ext F 0); try assumption; [congruence|]. intros idx Hi. rewrite Sy' in Hi. apply inb3 in Hi. destruct Hi as (I & i & j & -> & HI & Hi & Hj).
      rewrite (proj2 (G' I i j HI Hi Hj)), <- (Y I i j) by assumption. apply twice_half, H2.
  Qed.
End Rdm.
