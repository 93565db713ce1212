(** The two-electron integral containers. *)
From Coq Require Import String Field.
From Verif Require Import Base ListAux Alg ArrModel ArrProofs TensorModel EinsumModel EinsumSpec EinAux SpaceModel SpaceSpec SpaceThms
  CcModel CcProofs CcThms CcRdm CcShift DampProofs KernelProofs HamModel HamSpec HamProofs HamFock.
Set Implicit Arguments.
Local Open Scope string_scope.
Local Open Scope list_scope.
Local Open Scope nat_scope.

Section Eris.
  Variable F : fld.
  Local Open Scope rng_scope.
  Local Open Scope py_scope.
  Add Field Ffield11 : (fth F).

  (** * The transformation *)
  Lemma ao2mo_ok (eri c1 c2 c3 c4 : arr F) n k1 k2 k3 k4 : array_of [n; n; n; n] eri ->
    array_of [n; k1] c1 -> array_of [n; k2] c2 -> array_of [n; k3] c3 -> array_of [n; k4] c4 ->
    exists r, ao2mo F eri [c1; c2; c3; c4] = Ok r /\ array_of [k1; k2; k3; k4] r /\
      forall i j k l, (i < k1)%nat -> (j < k2)%nat -> (k < k3)%nat -> (l < k4)%nat ->
        aget 0 r [i; j; k; l] = mulliken n eri (fun p => aget 0 c1 [p; i]) (fun p => aget 0 c2 [p; j]) (fun p => aget 0 c3 [p; k]) (fun p => aget 0 c4 [p; l]).
  Proof.
    intros [We Se] [W1 S1] [W2 S2] [W3 S3] [W4 S4]. unfold ao2mo. set (sz := env_of (str "pqrsijkl") [n; n; n; n; k1; k2; k3; k4]).
    destruct (@np_value F sz [str "pqrs"; str "pi"; str "qj"; str "rk"; str "sl"] (str "ijkl") (str "pqrs") [eri; c1; c2; c3; c4]) as (r & E & Wr & Sr & G).
    - vm_compute. reflexivity.
    - repeat constructor; assumption.
    - exists r. change (map sz (str "ijkl")) with [k1; k2; k3; k4] in Sr, G. split; [exact E|]. split; [split; assumption|].
      intros i j k l Hi Hj Hk Hl. rewrite G by (apply inb4; exists i, j, k, l; tauto). change (map sz (str "pqrs")) with [n; n; n; n].
      unfold mulliken, sum.
      rewrite rsum_all_cons. apply rsum_map_ext. intros p _. rewrite rsum_all_cons. apply rsum_map_ext. intros q _.
      rewrite rsum_all_cons. apply rsum_map_ext. intros a _. rewrite rsum_all_cons. apply rsum_map_ext. intros b _. rewrite rsum_all_nil.
      unfold product_term, rprod. cbn [combine map fst snd fold_right app].
      change (map (env_of (str "ijkl" ++ str "pqrs") [i; j; k; l; p; q; a; b]) (str "pqrs")) with [p; q; a; b].
      change (map (env_of (str "ijkl" ++ str "pqrs") [i; j; k; l; p; q; a; b]) (str "pi")) with [p; i].
      change (map (env_of (str "ijkl" ++ str "pqrs") [i; j; k; l; p; q; a; b]) (str "qj")) with [q; j].
      change (map (env_of (str "ijkl" ++ str "pqrs") [i; j; k; l; p; q; a; b]) (str "rk")) with [a; k].
      change (map (env_of (str "ijkl" ++ str "pqrs") [i; j; k; l; p; q; a; b]) (str "sl")) with [b; l]. ring.
  Qed.
  Lemma sum_ext n (f g : nat -> F) : (forall i, (i < n)%nat -> f i = g i) -> sum n f = sum n g.
  Proof. intros H. unfold sum. apply rsum_map_ext. intros i Hi. apply in_seq in Hi. apply H. lia. Qed.
  Lemma sum_swap n m (f : nat -> nat -> F) : sum n (fun i => sum m (f i)) = sum m (fun j => sum n (fun i => f i j)).
  Proof. unfold sum. apply rsum_swap. Qed.
  Lemma mulliken_ext n eri (u1 u2 u3 u4 v1 v2 v3 v4 : nat -> F) : (forall p, (p < n)%nat -> u1 p = v1 p) -> (forall p, (p < n)%nat -> u2 p = v2 p) ->
    (forall p, (p < n)%nat -> u3 p = v3 p) -> (forall p, (p < n)%nat -> u4 p = v4 p) -> mulliken n eri u1 u2 u3 u4 = mulliken n eri v1 v2 v3 v4.
  Proof.
    intros H1 H2 H3 H4. unfold mulliken. apply sum_ext. intros p Hp. apply sum_ext. intros q Hq. apply sum_ext. intros r Hr. apply sum_ext. intros s Hs.
    rewrite H1, H2, H3, H4 by assumption. reflexivity.
  Qed.
  Lemma mulliken_bra n eri (u v w x : nat -> F) : eightfold n eri -> mulliken n eri u v w x = mulliken n eri v u w x.
  Proof.
    intros E. unfold mulliken. rewrite sum_swap. apply sum_ext. intros p Hp. apply sum_ext. intros q Hq. apply sum_ext. intros r Hr. apply sum_ext. intros s Hs.
    rewrite (proj1 (E q p r s Hq Hp Hr Hs)). ring.
  Qed.
  Lemma mulliken_exchange n eri (u v w x : nat -> F) : eightfold n eri -> mulliken n eri u v w x = mulliken n eri w x u v.
  Proof.
    intros E. unfold mulliken.
    transitivity (sum n (fun p => sum n (fun r => sum n (fun q => sum n (fun s => aget 0 eri [p; q; r; s] * (u p * v q * w r * x s)))))).
    { apply sum_ext. intros p _. apply sum_swap. }
    rewrite sum_swap. apply sum_ext. intros r Hr.
    transitivity (sum n (fun p => sum n (fun s => sum n (fun q => aget 0 eri [p; q; r; s] * (u p * v q * w r * x s))))).
    { apply sum_ext. intros p _. apply sum_swap. }
    rewrite sum_swap. apply sum_ext. intros s Hs. apply sum_ext. intros p Hp. apply sum_ext. intros q Hq.
    rewrite (proj2 (proj2 (E p q r s Hp Hq Hr Hs))). ring.
  Qed.
  Lemma mulliken_ket n eri (u v w x : nat -> F) : eightfold n eri -> mulliken n eri u v w x = mulliken n eri u v x w.
  Proof. intros E. rewrite (mulliken_exchange _ _ _ _ E), (mulliken_bra _ _ _ _ E). apply mulliken_exchange, E. Qed.

  (** * General *)
  Lemma rows_ok (C : arr F) n m sl l : array_of [n; m] C -> axis_positions n sl = l ->
    exists x, index_slices 0 C [Some sl] = Ok x /\ array_of [length l; m] x /\
      forall i j, (i < length l)%nat -> (j < m)%nat -> aget 0 x [i; j] = aget 0 C [nth i l 0%nat; j].
  Proof.
    intros [W S] E. unfold index_slices. rewrite S. cbn [List.length Nat.ltb Nat.leb]. cbn [Nat.sub repeat app combine map fst snd]. rewrite E.
    destruct (@gather_ok F 0 C [l; seq 0 m]) as (Wg & Sg & G). cbn [map] in Sg, G. rewrite seq_length in Sg, G.
    eexists. split; [reflexivity|]. split; [split; assumption|]. intros i j Hi Hj. rewrite G by (apply inb2; exists i, j; tauto).
    cbn [combine map fst snd]. rewrite seq_nth by exact Hj. reflexivity.
  Qed.
  Lemma zip4_ok (f : F -> F -> F) (a b : arr F) s : array_of s a -> array_of s b ->
    exists c, zip_arr f a b = Ok c /\ array_of s c /\ forall idx, inb s idx -> aget 0 c idx = f (aget 0 a idx) (aget 0 b idx).
  Proof. intros [Wa Sa] [Wb Sb]. destruct (@zip_ok F f a b Wa Wb ltac:(congruence)) as (c & E & W & S & G). exists c. split; [exact E|]. split; [split; congruence|]. intros idx Hi. apply G. congruence. Qed.

  Theorem geris_array_ok (g : geris F) : general_eris g ->
    exists x, geris_array g = Ok x /\ array_of (repeat (nmo (ge_space g)) 4) x /\
      forall p q r s, (p < nmo (ge_space g))%nat -> (q < nmo (ge_space g))%nat -> (r < nmo (ge_space g))%nat -> (s < nmo (ge_space g))%nat ->
        aget 0 x [p; q; r; s] = spin_mulliken (ge_nao g) (ge_ao g) (ge_coeff g) p r q s - spin_mulliken (ge_nao g) (ge_ao g) (ge_coeff g) p s q r.
  Proof.
    intros ((A & N & VC) & VE). set (n := nmo (ge_space g)) in *. set (na := ge_nao g) in *. set (C := ge_coeff g) in *. cbn [repeat].
    unfold geris_array. fold C na.
    destruct (@rows_ok C (2 * na) n (0%Z, Z.of_nat na) (seq 0 na) VC) as (a & Ea & Va & Ga).
    { change 0%Z with (Z.of_nat 0). rewrite positions_run. f_equal; lia. }
    destruct (@rows_ok C (2 * na) n (Z.of_nat na, Z.of_nat (2 * na)) (seq na na) VC) as (b & Eb & Vb & Gb).
    { rewrite positions_run. f_equal; lia. }
    rewrite seq_length in Va, Ga, Vb, Gb. rewrite Ea. cbn [bind].
    replace (nth 0 (shp C) 0%nat) with (2 * na)%nat by (destruct VC as [_ ->]; reflexivity). rewrite Eb. cbn [bind].
    destruct (@ao2mo_ok (ge_ao g) a a a a na n n n n VE Va Va Va Va) as (x1 & E1 & V1 & G1). rewrite E1. cbn [bind].
    destruct (@ao2mo_ok (ge_ao g) b b b b na n n n n VE Vb Vb Vb Vb) as (x2 & E2 & V2 & G2). rewrite E2. cbn [bind].
    destruct (@zip4_ok radd x1 x2 _ V1 V2) as (y2 & Y2 & U2 & H2). unfold plus_arr. rewrite Y2. cbn [bind].
    destruct (@ao2mo_ok (ge_ao g) a a b b na n n n n VE Va Va Vb Vb) as (x3 & E3 & V3 & G3). rewrite E3. cbn [bind].
    destruct (@zip4_ok radd y2 x3 _ U2 V3) as (y3 & Y3 & U3 & H3). rewrite Y3. cbn [bind].
    destruct (@ao2mo_ok (ge_ao g) b b a a na n n n n VE Vb Vb Va Va) as (x4 & E4 & V4 & G4). rewrite E4. cbn [bind].
    destruct (@zip4_ok radd y3 x4 _ U3 V4) as (y4 & Y4 & U4 & H4). rewrite Y4. cbn [bind].
    assert (G : forall p q r s, (p < n)%nat -> (q < n)%nat -> (r < n)%nat -> (s < n)%nat -> aget 0 y4 [p; q; r; s] = spin_mulliken na (ge_ao g) C p q r s).
    { intros p q r s Hp Hq Hr Hs. assert (HI : inb [n; n; n; n] [p; q; r; s]) by (apply inb4; exists p, q, r, s; tauto).
      rewrite H4, H3, H2, G1, G2, G3, G4 by assumption. unfold spin_mulliken, sum at 1. cbn [seq map]. rewrite !rsum_cons. unfold sum. cbn [seq map]. rewrite !rsum_cons.
      change (@rsum F []) with (0 : F).
      assert (RA : forall j, (j < n)%nat -> forall mu, (mu < na)%nat -> aget 0 a [mu; j] = spin_row na C 0 j mu).
      { intros j Hj mu Hm. rewrite Ga by assumption. rewrite seq_nth by assumption. reflexivity. }
      assert (RB : forall j, (j < n)%nat -> forall mu, (mu < na)%nat -> aget 0 b [mu; j] = spin_row na C 1 j mu).
      { intros j Hj mu Hm. rewrite Gb by assumption. rewrite seq_nth by assumption. unfold spin_row. rewrite Nat.mul_1_l. reflexivity. }
      rewrite (@mulliken_ext na (ge_ao g) _ _ _ _ _ _ _ _ (RA p Hp) (RA q Hq) (RA r Hr) (RA s Hs)), (@mulliken_ext na (ge_ao g) _ _ _ _ _ _ _ _ (RB p Hp) (RB q Hq) (RB r Hr) (RB s Hs)),
        (@mulliken_ext na (ge_ao g) _ _ _ _ _ _ _ _ (RA p Hp) (RA q Hq) (RB r Hr) (RB s Hs)), (@mulliken_ext na (ge_ao g) _ _ _ _ _ _ _ _ (RB p Hp) (RB q Hq) (RA r Hr) (RA s Hs)). ring. }
    destruct U4 as [W4 S4].
    destruct (@transpose_get F y4 [0; 2; 1; 3]%nat) as (d & Ed & Wd & Sd & Gd); [rewrite S4; apply (proj1 (is_perm_iff 4 [0; 2; 1; 3]%nat)); reflexivity|].
    destruct (@transpose_get F y4 [0; 2; 3; 1]%nat) as (x & Ex & Wx & Sx & Gx); [rewrite S4; apply (proj1 (is_perm_iff 4 [0; 2; 3; 1]%nat)); reflexivity|].
    rewrite S4 in Sd, Sx. cbn [map nth] in Sd, Sx. rewrite Ed. cbn [bind]. rewrite Ex. cbn [bind].
    destruct (@zip4_ok rsub d x _ (conj Wd Sd) (conj Wx Sx)) as (z & Ez & Vz & Gz).
    exists z. split; [exact Ez|]. split; [exact Vz|]. intros p q r s Hp Hq Hr Hs.
    assert (HI : inb [n; n; n; n] [p; q; r; s]) by (apply inb4; exists p, q, r, s; tauto).
    rewrite Gz by exact HI. rewrite Gd by (rewrite Sd; exact HI). rewrite Gx by (rewrite Sx; exact HI).
    change (unperm [0; 2; 1; 3]%nat [p; q; r; s]) with [p; r; q; s]. change (unperm [0; 2; 3; 1]%nat [p; q; r; s]) with [p; s; q; r].
    rewrite !G by assumption. reflexivity.
  Qed.

  Theorem geris_block_ok (g : geris F) w x y z a1 b1 a2 b2 a3 b3 a4 b4 : general_eris g ->
    orbitals_from (ge_space g) w a1 b1 -> orbitals_from (ge_space g) x a2 b2 -> orbitals_from (ge_space g) y a3 b3 -> orbitals_from (ge_space g) z a4 b4 ->
    exists v, geris_get g [w; x; y; z] = Ok v /\ array_of [b1 - a1; b2 - a2; b3 - a3; b4 - a4]%nat v /\
      forall i j k l, (i < b1 - a1)%nat -> (j < b2 - a2)%nat -> (k < b3 - a3)%nat -> (l < b4 - a4)%nat ->
        aget 0 v [i; j; k; l] =
          spin_mulliken (ge_nao g) (ge_ao g) (ge_coeff g) (a1 + i) (a3 + k) (a2 + j) (a4 + l) -
          spin_mulliken (ge_nao g) (ge_ao g) (ge_coeff g) (a1 + i) (a4 + l) (a2 + j) (a3 + k).
  Proof.
    intros P O1 O2 O3 O4. destruct (@geris_array_ok g P) as (t & Et & [Wt St] & Gt). destruct P as ((A & N & _) & _).
    unfold geris_get. rewrite Et. cbn [bind]. unfold memb. cbn [existsb]. rewrite (not_p O1), (not_p O2), (not_p O3), (not_p O4). cbn [orb].
    destruct (@slice_run _ _ _ _ A N O1) as (s1 & E1 & P1). destruct (@slice_run _ _ _ _ A N O2) as (s2 & E2 & P2).
    destruct (@slice_run _ _ _ _ A N O3) as (s3 & E3 & P3). destruct (@slice_run _ _ _ _ A N O4) as (s4 & E4 & P4).
    unfold get_slices. cbn [repeat combine mapM fst snd]. rewrite E1, E2, E3, E4. cbn [bind map].
    unfold index_slices. rewrite St. cbn [repeat List.length Nat.ltb Nat.leb Nat.sub app combine map fst snd]. rewrite P1, P2, P3, P4.
    destruct (@gather_ok F 0 t [seq a1 (b1 - a1); seq a2 (b2 - a2); seq a3 (b3 - a3); seq a4 (b4 - a4)]) as (Wg & Sg & G).
    cbn [map] in Sg, G. rewrite !seq_length in Sg, G. eexists. split; [reflexivity|]. split; [split; assumption|].
    intros i j k l Hi Hj Hk Hl. rewrite G by (apply inb4; exists i, j, k, l; tauto). cbn [combine map fst snd]. rewrite !seq_nth by assumption.
    destruct O1 as (_ & _ & D1), O2 as (_ & _ & D2), O3 as (_ & _ & D3), O4 as (_ & _ & D4).
    apply Gt; [apply D1|apply D2|apply D3|apply D4]; lia.
  Qed.
  Lemma spin_exchange n eri C p q r s : eightfold n eri -> spin_mulliken n eri C p q r s = spin_mulliken (F := F) n eri C r s p q.
  Proof. intros E. unfold spin_mulliken. rewrite sum_swap. apply sum_ext. intros x _. apply sum_ext. intros y _. apply mulliken_exchange, E. Qed.
  Lemma spin_flip n eri C p q r s : eightfold n eri -> spin_mulliken n eri C p q r s = spin_mulliken (F := F) n eri C q p s r.
  Proof. intros E. unfold spin_mulliken. apply sum_ext. intros x _. apply sum_ext. intros y _. rewrite mulliken_bra by exact E. apply mulliken_ket, E. Qed.

  Theorem ket_antisymmetric (g : geris F) w x y z a1 b1 a2 b2 a3 b3 a4 b4 : general_eris g ->
    orbitals_from (ge_space g) w a1 b1 -> orbitals_from (ge_space g) x a2 b2 -> orbitals_from (ge_space g) y a3 b3 -> orbitals_from (ge_space g) z a4 b4 ->
    exists v v', geris_get g [w; x; y; z] = Ok v /\ geris_get g [w; x; z; y] = Ok v' /\
      array_of [b1 - a1; b2 - a2; b3 - a3; b4 - a4]%nat v /\ array_of [b1 - a1; b2 - a2; b4 - a4; b3 - a3]%nat v' /\
      forall i j k l, (i < b1 - a1)%nat -> (j < b2 - a2)%nat -> (k < b3 - a3)%nat -> (l < b4 - a4)%nat -> aget 0 v [i; j; k; l] = - aget 0 v' [i; j; l; k].
  Proof.
    intros P O1 O2 O3 O4. destruct (@geris_block_ok g w x y z _ _ _ _ _ _ _ _ P O1 O2 O3 O4) as (v & E & V & G).
    destruct (@geris_block_ok g w x z y _ _ _ _ _ _ _ _ P O1 O2 O4 O3) as (v' & E' & V' & G').
    exists v, v'. split; [exact E|]. split; [exact E'|]. split; [exact V|]. split; [exact V'|]. intros i j k l Hi Hj Hk Hl. rewrite G, G' by assumption. ring.
  Qed.
  Theorem bra_antisymmetric (g : geris F) w x y z a1 b1 a2 b2 a3 b3 a4 b4 : general_eris g -> eightfold (ge_nao g) (ge_ao g) ->
    orbitals_from (ge_space g) w a1 b1 -> orbitals_from (ge_space g) x a2 b2 -> orbitals_from (ge_space g) y a3 b3 -> orbitals_from (ge_space g) z a4 b4 ->
    exists v v' v'', geris_get g [w; x; y; z] = Ok v /\ geris_get g [x; w; y; z] = Ok v' /\ geris_get g [y; z; w; x] = Ok v'' /\
      array_of [b1 - a1; b2 - a2; b3 - a3; b4 - a4]%nat v /\ array_of [b2 - a2; b1 - a1; b3 - a3; b4 - a4]%nat v' /\ array_of [b3 - a3; b4 - a4; b1 - a1; b2 - a2]%nat v'' /\
      forall i j k l, (i < b1 - a1)%nat -> (j < b2 - a2)%nat -> (k < b3 - a3)%nat -> (l < b4 - a4)%nat ->
        aget 0 v [i; j; k; l] = - aget 0 v' [j; i; k; l] /\ aget 0 v [i; j; k; l] = aget 0 v'' [k; l; i; j].
  Proof.
    intros P S O1 O2 O3 O4. destruct (@geris_block_ok g w x y z _ _ _ _ _ _ _ _ P O1 O2 O3 O4) as (v & E & V & G).
    destruct (@geris_block_ok g x w y z _ _ _ _ _ _ _ _ P O2 O1 O3 O4) as (v' & E' & V' & G').
    destruct (@geris_block_ok g y z w x _ _ _ _ _ _ _ _ P O3 O4 O1 O2) as (v'' & E'' & V'' & G'').
    exists v, v', v''. repeat (split; [assumption|]). intros i j k l Hi Hj Hk Hl. rewrite G, G', G'' by assumption. split.
    - rewrite (@spin_exchange _ _ (ge_coeff g) (a2 + j) (a3 + k) (a1 + i) (a4 + l) S), (@spin_exchange _ _ (ge_coeff g) (a2 + j) (a4 + l) (a1 + i) (a3 + k) S). ring.
    - rewrite (@spin_flip _ _ (ge_coeff g) (a1 + i) (a3 + k) (a2 + j) (a4 + l) S).
      rewrite (@spin_flip _ _ (ge_coeff g) (a1 + i) (a4 + l) (a2 + j) (a3 + k) S), (@spin_exchange _ _ (ge_coeff g) (a4 + l) (a1 + i) (a3 + k) (a2 + j) S). reflexivity.
  Qed.

  (** * Restricted, unrestricted and density-fitted *)
  Theorem reris_history (e : reris F) h key : reris_after e h key = reris_after e [] key.
  Proof.
    assert (S : forall h m, sound (reris_block e) m -> sound (reris_block e) (fold_left (fun m k => fst (reris_get e k m)) h m)).
    { clear. induction h as [|k h IH]; intros m Sm; cbn; [exact Sm|]. apply IH. apply (@memo_sound (arr F) (reris_block e) k m Sm). }
    unfold reris_after. transitivity (reris_block e key); [|symmetry]; apply (@memo_sound (arr F) (reris_block e) key); apply S, sound_nil.
  Qed.
  Lemma reris_after_block (e : reris F) h key : reris_after e h key = reris_block e key.
  Proof. rewrite reris_history. apply (@memo_sound (arr F) (reris_block e) key []), sound_nil. Qed.

  Theorem reris_value (e : reris F) s1 s2 s3 s4 c1 c2 c3 c4 nao h w x y z k1 k2 k3 k4 f1 f2 f3 f4 :
    plain_eris e [s1; s2; s3; s4] [c1; c2; c3; c4] nao ->
    functions_of s1 c1 nao w k1 f1 -> functions_of s2 c2 nao x k2 f2 -> functions_of s3 c3 nao y k3 f3 -> functions_of s4 c4 nao z k4 f4 ->
    exists v, reris_after e h [w; x; y; z] = Ok v /\ array_of [k1; k2; k3; k4] v /\
      forall i j k l, (i < k1)%nat -> (j < k2)%nat -> (k < k3)%nat -> (l < k4)%nat ->
        aget 0 v [i; j; k; l] = mulliken nao (er_ao e) (f1 i) (f2 j) (f3 k) (f4 l).
  Proof.
    intros (Es & Ec & _ & B & VE) F1 F2 F3 F4. inversion B as [|? ? ? ? B1 B' ]; subst. inversion B' as [|? ? ? ? B2 B2']; subst. inversion B2' as [|? ? ? ? B3 B3']; subst. inversion B3' as [|? ? ? ? B4 _]; subst.
    rewrite reris_after_block. unfold reris_block, get_coeffs. rewrite Es, Ec. cbn [List.length seq combine mapM].
    set (ss := [s1; s2; s3; s4]). set (cs := [c1; c2; c3; c4]).
    destruct (@coeff_ok F ss cs 0 0 w s1 c1 nao k1 f1 eq_refl eq_refl B1 F1) as (x1 & X1 & V1 & G1).
    destruct (@coeff_ok F ss cs 0 1 x s2 c2 nao k2 f2 eq_refl eq_refl B2 F2) as (x2 & X2 & V2 & G2).
    destruct (@coeff_ok F ss cs 0 2 y s3 c3 nao k3 f3 eq_refl eq_refl B3 F3) as (x3 & X3 & V3 & G3).
    destruct (@coeff_ok F ss cs 0 3 z s4 c4 nao k4 f4 eq_refl eq_refl B4 F4) as (x4 & X4 & V4 & G4).
    rewrite X1, X2, X3, X4. cbn [bind]. destruct (@ao2mo_ok (er_ao e) x1 x2 x3 x4 nao k1 k2 k3 k4 VE V1 V2 V3 V4) as (v & Ev & Vv & G).
    exists v. split; [exact Ev|]. split; [exact Vv|]. intros i j k l Hi Hj Hk Hl. rewrite G by assumption. apply mulliken_ext; intros p Hp; [apply G1|apply G2|apply G3|apply G4]; assumption.
  Qed.
  Theorem reris_symmetric (e : reris F) s C nao h1 h2 h3 h4 w x y z k1 k2 k3 k4 f1 f2 f3 f4 :
    plain_eris e [s; s; s; s] [C; C; C; C] nao -> eightfold nao (er_ao e) ->
    functions_of s C nao w k1 f1 -> functions_of s C nao x k2 f2 -> functions_of s C nao y k3 f3 -> functions_of s C nao z k4 f4 ->
    exists v a b c, reris_after e h1 [w; x; y; z] = Ok v /\ reris_after e h2 [x; w; y; z] = Ok a /\ reris_after e h3 [w; x; z; y] = Ok b /\ reris_after e h4 [y; z; w; x] = Ok c /\
      array_of [k1; k2; k3; k4] v /\ array_of [k2; k1; k3; k4] a /\ array_of [k1; k2; k4; k3] b /\ array_of [k3; k4; k1; k2] c /\
      forall i j k l, (i < k1)%nat -> (j < k2)%nat -> (k < k3)%nat -> (l < k4)%nat ->
        aget 0 v [i; j; k; l] = aget 0 a [j; i; k; l] /\ aget 0 v [i; j; k; l] = aget 0 b [i; j; l; k] /\ aget 0 v [i; j; k; l] = aget 0 c [k; l; i; j].
  Proof.
    intros P S F1 F2 F3 F4.
    destruct (@reris_value e s s s s C C C C nao h1 w x y z _ _ _ _ _ _ _ _ P F1 F2 F3 F4) as (v & Ev & Vv & Gv).
    destruct (@reris_value e s s s s C C C C nao h2 x w y z _ _ _ _ _ _ _ _ P F2 F1 F3 F4) as (a & Ea & Va & Ga).
    destruct (@reris_value e s s s s C C C C nao h3 w x z y _ _ _ _ _ _ _ _ P F1 F2 F4 F3) as (b & Eb & Vb & Gb).
    destruct (@reris_value e s s s s C C C C nao h4 y z w x _ _ _ _ _ _ _ _ P F3 F4 F1 F2) as (c & Ec & Vc & Gc).
    exists v, a, b, c. repeat (split; [assumption|]). intros i j k l Hi Hj Hk Hl. rewrite Gv, Ga, Gb, Gc by assumption.
    split; [apply mulliken_bra, S|]. split; [apply mulliken_ket, S|apply mulliken_exchange, S].
  Qed.
  Theorem ueris_exchange (u : ueris F) nao h1 h2 w x y z i j s t k1 k2 k3 k4 f1 f2 f3 f4 e e' :
    array_of [nao; nao; nao; nao] (ue_ao u) -> eightfold nao (ue_ao u) ->
    orbital_basis (pick (ue_space u) i) (pick (ue_coeff u) i) nao -> orbital_basis (pick (ue_space u) j) (pick (ue_coeff u) j) nao ->
    spin_key [s; s] i -> spin_key [t; t] j -> ueris_part u [s; s; t; t] = Ok e -> ueris_part u [t; t; s; s] = Ok e' ->
    functions_of (pick (ue_space u) i) (pick (ue_coeff u) i) nao w k1 f1 -> functions_of (pick (ue_space u) i) (pick (ue_coeff u) i) nao x k2 f2 ->
    functions_of (pick (ue_space u) j) (pick (ue_coeff u) j) nao y k3 f3 -> functions_of (pick (ue_space u) j) (pick (ue_coeff u) j) nao z k4 f4 ->
    exists v v', reris_after e h1 [w; x; y; z] = Ok v /\ reris_after e' h2 [y; z; w; x] = Ok v' /\ array_of [k1; k2; k3; k4] v /\ array_of [k3; k4; k1; k2] v' /\
      forall a b c d, (a < k1)%nat -> (b < k2)%nat -> (c < k3)%nat -> (d < k4)%nat ->
        aget 0 v [a; b; c; d] = mulliken nao (ue_ao u) (f1 a) (f2 b) (f3 c) (f4 d) /\ aget 0 v [a; b; c; d] = aget 0 v' [c; d; a; b].
  Proof.
    intros A S Bi Bj Ks Kt Ee Ee' F1 F2 F3 F4.
    assert (P : forall s t i j e, spin_key [s; s] i -> spin_key [t; t] j -> ueris_part u [s; s; t; t] = Ok e ->
      e = @mkreris F (ue_ao u) [pick (ue_space u) i; pick (ue_space u) i; pick (ue_space u) j; pick (ue_space u) j] [pick (ue_coeff u) i; pick (ue_coeff u) i; pick (ue_coeff u) j; pick (ue_coeff u) j]).
    { clear. intros s t i j e K1 K2. destruct K1 as [[K1 ->]|[K1 ->]], K2 as [[K2 ->]|[K2 ->]]; vm_compute in K1, K2; injection K1 as ->; injection K2 as ->; intros E; apply ok_inj in E; symmetry; exact E. }
    rewrite (@P s t i j e Ks Kt Ee), (@P t s j i e' Kt Ks Ee'). clear P Ee Ee' e e'.
    match goal with |- exists _ _, reris_after ?e _ _ = _ /\ reris_after ?e' _ _ = _ /\ _ => set (E1 := e); set (E2 := e') end.
    destruct (@reris_value E1 _ _ _ _ _ _ _ _ nao h1 w x y z _ _ _ _ _ _ _ _ ltac:(repeat split; try apply A; repeat constructor; try apply Bi; try apply Bj) F1 F2 F3 F4) as (v & Ev & Vv & Gv).
    destruct (@reris_value E2 _ _ _ _ _ _ _ _ nao h2 y z w x _ _ _ _ _ _ _ _ ltac:(repeat split; try apply A; repeat constructor; try apply Bi; try apply Bj) F3 F4 F1 F2) as (v' & Ev' & Vv' & Gv').
    exists v, v'. repeat (split; [assumption|]). intros a b c d Ha Hb Hc Hd. split; [apply Gv; assumption|]. rewrite Gv, Gv' by assumption. apply mulliken_exchange, S.
  Qed.

  Definition cd_sound (c : cderis F) (m : members F) : Prop := forall key e2 v, dget pystr_eq_dec (cd_key key e2) m = Some v -> cderis_block c key e2 = Ok v.
  Lemma cd_key_inj k k' b b' : cd_key k b = cd_key k' b' -> k = k' /\ b = b'.
  Proof.
    unfold cd_key. intros E. assert (L : length k = length k'). { apply (f_equal (@List.length nat)) in E. rewrite !app_length in E. destruct b, b'; cbn in E; lia. }
    pose proof (f_equal (fun l => skipn (length k) l) E) as H. cbn beta in H. rewrite skipn_app, skipn_all, Nat.sub_diag in H. cbn [skipn app] in H.
    rewrite L, skipn_app, skipn_all, Nat.sub_diag in H. cbn [skipn app] in H.
    assert (b = b') by (destruct b, b'; (reflexivity || discriminate H)). subst b'. split; [|reflexivity]. apply app_inv_tail in E. exact E.
  Qed.
  Lemma cd_get3_sound c key e2 m : cd_sound c m -> cd_sound c (fst (cderis_get3 c key e2 m)) /\ snd (cderis_get3 c key e2 m) = cderis_block c (skipn 1 key) e2.
  Proof.
    intros S. unfold cderis_get3, memo. destruct (dget pystr_eq_dec (cd_key (skipn 1 key) e2) m) as [v|] eqn:E.
    - split; [exact S|]. symmetry. apply S, E.
    - destruct (cderis_block c (skipn 1 key) e2) as [v|x] eqn:Ef; [|split; [exact S|reflexivity]]. split; [|reflexivity].
      intros k b u. cbn [fst]. rewrite (@dget_dset _ _ pystr_eq_dec). destruct (pystr_eq_dec (cd_key k b) (cd_key (skipn 1 key) e2)) as [K|]; [|apply S].
      intros [= <-]. apply cd_key_inj in K. destruct K as [-> ->]. exact Ef.
  Qed.
  Definition cd_pure (c : cderis F) (key : pystr) (e2 : bool) : result (arr F) :=
    if (length key =? 4)%nat then
      v1 <- cderis_block c (firstn 2 key) false ;; v2 <- cderis_block c (skipn 2 key) true ;;
      np_einsum F [str "Qij"; str "Qkl"] (str "ijkl") [v1; v2]
    else if (length key =? 3)%nat then cderis_block c (skipn 1 key) e2 else Err KeyError.
  Lemma cd_get_sound c key e2 m : cd_sound c m -> cd_sound c (fst (cderis_get c key e2 m)) /\ snd (cderis_get c key e2 m) = cd_pure c key e2.
  Proof.
    intros S. unfold cderis_get, cd_pure. destruct (length key =? 4)%nat.
    - destruct (@cd_get3_sound c (ch_Q :: firstn 2 key) false m S) as [S1 R1]. destruct (cderis_get3 c (ch_Q :: firstn 2 key) false m) as [m1 r1']. cbn [fst snd] in S1, R1.
      change (skipn 1 (ch_Q :: firstn 2 key)) with (firstn 2 key) in R1. rewrite <- R1. destruct r1' as [v1|x]; cbn [bind]; [|split; [exact S1|reflexivity]].
      destruct (@cd_get3_sound c (ch_Q :: skipn 2 key) true m1 S1) as [S2 R2]. destruct (cderis_get3 c (ch_Q :: skipn 2 key) true m1) as [m2 r2']. cbn [fst snd] in S2, R2.
      change (skipn 1 (ch_Q :: skipn 2 key)) with (skipn 2 key) in R2. rewrite <- R2. destruct r2' as [v2|x]; cbn [bind]; (split; [exact S2|reflexivity]).
    - destruct (length key =? 3)%nat; [apply cd_get3_sound, S|split; [exact S|reflexivity]].
  Qed.
  Lemma cd_run_sound c h : cd_sound c (cderis_run c h).
  Proof.
    assert (S : forall h m, cd_sound c m -> cd_sound c (fold_left (fun m p => fst (cderis_get c (fst p) (snd p) m)) h m)).
    { clear. induction h as [|p h IH]; intros m Sm; cbn; [exact Sm|]. apply IH. apply cd_get_sound, Sm. }
    apply S. intros k e2 v H. discriminate.
  Qed.
  Lemma cd_after_pure (c : cderis F) h key e2 : cderis_after c h key e2 = cd_pure c key e2.
  Proof. apply cd_get_sound, cd_run_sound. Qed.
  Theorem cderis_history (c : cderis F) h key e2 : cderis_after c h key e2 = cderis_after c [] key e2.
  Proof. rewrite !cd_after_pure. reflexivity. Qed.

  (** Values *)
  Lemma unpacked_ok (c : cderis F) ss cs naux : plain_cderis c ss cs naux -> array_of [naux; cd_nao c; cd_nao c] (unpacked c) /\
    forall Q p q, (Q < naux)%nat -> (p < cd_nao c)%nat -> (q < cd_nao c)%nat -> aget 0 (unpacked c) [Q; p; q] = aget 0 (cd_vec c) [Q; tri_pos p q].
  Proof.
    intros (_ & _ & _ & _ & W & S). unfold unpacked. rewrite S. cbn [nth]. split; [split; [apply tab_wf|reflexivity]|].
    intros Q p q HQ Hp Hq. rewrite (@aget_tab F 0) by (apply inb3; exists Q, p, q; tauto). reflexivity.
  Qed.
  Definition half_val (c : cderis F) (u v : nat -> F) (Q : nat) : F :=
    sum (cd_nao c) (fun p => sum (cd_nao c) (fun q => aget 0 (cd_vec c) [Q; tri_pos p q] * (u p * v q))).
  Lemma transform3_ok (m x y : arr F) nq n k l : array_of [nq; n; n] m -> array_of [n; k] x -> array_of [n; l] y ->
    exists r, np_einsum F [str "Qpq"; str "pi"; str "qj"] (str "Qij") [m; x; y] = Ok r /\ array_of [nq; k; l] r /\
      forall Q i j, (Q < nq)%nat -> (i < k)%nat -> (j < l)%nat -> aget 0 r [Q; i; j] = sum n (fun p => sum n (fun q => aget 0 m [Q; p; q] * (aget 0 x [p; i] * aget 0 y [q; j]))).
  Proof.
    intros [Wm Sm] [Wx Sx] [Wy Sy]. set (sz := env_of (str "Qpqij") [nq; n; n; k; l]).
    destruct (@np_value F sz [str "Qpq"; str "pi"; str "qj"] (str "Qij") (str "pq") [m; x; y]) as (r & E & Wr & Sr & G).
    - vm_compute. reflexivity.
    - repeat constructor; try assumption.
    - exists r. change (map sz (str "Qij")) with [nq; k; l] in Sr, G. split; [exact E|]. split; [split; assumption|].
      intros Q i j HQ Hi Hj. rewrite G by (apply inb3; exists Q, i, j; tauto). change (map sz (str "pq")) with [n; n].
      rewrite rsum_all_cons. unfold sum. apply rsum_map_ext. intros p _. rewrite rsum_all_cons. apply rsum_map_ext. intros q _. rewrite rsum_all_nil.
      unfold product_term, rprod. cbn [combine map fst snd fold_right app].
      change (map (env_of (str "Qij" ++ str "pq") [Q; i; j; p; q]) (str "Qpq")) with [Q; p; q].
      change (map (env_of (str "Qij" ++ str "pq") [Q; i; j; p; q]) (str "pi")) with [p; i].
      change (map (env_of (str "Qij" ++ str "pq") [Q; i; j; p; q]) (str "qj")) with [q; j]. ring.
  Qed.
  Lemma contract_ok (x y : arr F) nq k1 k2 k3 k4 : array_of [nq; k1; k2] x -> array_of [nq; k3; k4] y ->
    exists r, np_einsum F [str "Qij"; str "Qkl"] (str "ijkl") [x; y] = Ok r /\ array_of [k1; k2; k3; k4] r /\
      forall i j k l, (i < k1)%nat -> (j < k2)%nat -> (k < k3)%nat -> (l < k4)%nat -> aget 0 r [i; j; k; l] = sum nq (fun Q => aget 0 x [Q; i; j] * aget 0 y [Q; k; l]).
  Proof.
    intros [Wx Sx] [Wy Sy]. set (sz := env_of (str "Qijkl") [nq; k1; k2; k3; k4]).
    destruct (@np_value F sz [str "Qij"; str "Qkl"] (str "ijkl") (str "Q") [x; y]) as (r & E & Wr & Sr & G).
    - vm_compute. reflexivity.
    - repeat constructor; try assumption.
    - exists r. change (map sz (str "ijkl")) with [k1; k2; k3; k4] in Sr, G. split; [exact E|]. split; [split; assumption|].
      intros i j k l Hi Hj Hk Hl. rewrite G by (apply inb4; exists i, j, k, l; tauto). change (map sz (str "Q")) with [nq].
      rewrite rsum_all_cons. unfold sum. apply rsum_map_ext. intros Q _. rewrite rsum_all_nil.
      unfold product_term, rprod. cbn [combine map fst snd fold_right app].
      change (map (env_of (str "ijkl" ++ str "Q") [i; j; k; l; Q]) (str "Qij")) with [Q; i; j].
      change (map (env_of (str "ijkl" ++ str "Q") [i; j; k; l; Q]) (str "Qkl")) with [Q; k; l]. ring.
  Qed.
  Lemma cd_block_ok (c : cderis F) ss cs naux (e2 : bool) s1 s2 c1 c2 x y k l u v : plain_cderis c ss cs naux ->
    let o := (if e2 then 2 else 0)%nat in
    item ss (0 + o) = Ok s1 -> item ss (1 + o) = Ok s2 -> item cs (0 + o) = Ok c1 -> item cs (1 + o) = Ok c2 ->
    orbital_basis s1 c1 (cd_nao c) -> orbital_basis s2 c2 (cd_nao c) ->
    functions_of s1 c1 (cd_nao c) x k u -> functions_of s2 c2 (cd_nao c) y l v ->
    exists b, cderis_block c [x; y] e2 = Ok b /\ array_of [naux; k; l] b /\
      forall Q i j, (Q < naux)%nat -> (i < k)%nat -> (j < l)%nat -> aget 0 b [Q; i; j] = half_val c (u i) (v j) Q.
  Proof.
    intros P o I1 I2 J1 J2 B1 B2 X Y. destruct (@unpacked_ok c ss cs naux P) as [VU GU]. destruct P as (Es & Ec & _).
    unfold cderis_block, get_coeffs. rewrite Es, Ec. cbn [List.length seq combine mapM].
    destruct (@coeff_ok F ss cs o 0 x s1 c1 _ k u I1 J1 B1 X) as (cx & Ex & Vx & Gx).
    destruct (@coeff_ok F ss cs o 1 y s2 c2 _ l v I2 J2 B2 Y) as (cy & Ey & Vy & Gy). fold o.
    rewrite Ex, Ey. cbn [bind]. destruct (@transform3_ok (unpacked c) cx cy naux _ k l VU Vx Vy) as (b & Eb & Vb & G).
    exists b. split; [exact Eb|]. split; [exact Vb|]. intros Q i j HQ Hi Hj. rewrite G by assumption. unfold half_val.
    apply sum_ext. intros p Hp. apply sum_ext. intros q Hq. rewrite GU, Gx, Gy by assumption. reflexivity.
  Qed.
  Lemma sum_l n c (f : nat -> F) : c * sum n f = sum n (fun i => c * f i).
  Proof. unfold sum. symmetry. apply rsum_map_mul_l. Qed.
  Lemma sum_r n c (f : nat -> F) : sum n f * c = sum n (fun i => f i * c).
  Proof. unfold sum. symmetry. apply rsum_map_mul_r. Qed.
  Theorem cderis_value (c : cderis F) s1 s2 s3 s4 c1 c2 c3 c4 naux eri h w x y z k1 k2 k3 k4 f1 f2 f3 f4 :
    plain_cderis c [s1; s2; s3; s4] [c1; c2; c3; c4] naux -> fitted c naux eri ->
    functions_of s1 c1 (cd_nao c) w k1 f1 -> functions_of s2 c2 (cd_nao c) x k2 f2 -> functions_of s3 c3 (cd_nao c) y k3 f3 -> functions_of s4 c4 (cd_nao c) z k4 f4 ->
    exists v, cderis_after c h [w; x; y; z] false = Ok v /\ array_of [k1; k2; k3; k4] v /\
      forall i j k l, (i < k1)%nat -> (j < k2)%nat -> (k < k3)%nat -> (l < k4)%nat ->
        aget 0 v [i; j; k; l] = mulliken (cd_nao c) eri (f1 i) (f2 j) (f3 k) (f4 l).
  Proof.
    intros P Fit F1 F2 F3 F4. assert (P' := P). destruct P' as (_ & _ & _ & B & _).
    inversion B as [|? ? ? ? B1 B']; subst. inversion B' as [|? ? ? ? B2 B2']; subst. inversion B2' as [|? ? ? ? B3 B3']; subst. inversion B3' as [|? ? ? ? B4 _]; subst.
    destruct (@cd_block_ok c _ _ naux false s1 s2 c1 c2 w x k1 k2 f1 f2 P eq_refl eq_refl eq_refl eq_refl B1 B2 F1 F2) as (a & Ea & Va & Ga).
    destruct (@cd_block_ok c _ _ naux true s3 s4 c3 c4 y z k3 k4 f3 f4 P eq_refl eq_refl eq_refl eq_refl B3 B4 F3 F4) as (b & Eb & Vb & Gb).
    rewrite cd_after_pure. unfold cd_pure. cbn [List.length Nat.eqb firstn skipn]. rewrite Ea, Eb. cbn [bind].
    destruct (@contract_ok a b naux k1 k2 k3 k4 Va Vb) as (v & Ev & Vv & G). exists v. split; [exact Ev|]. split; [exact Vv|].
    intros i j k l Hi Hj Hk Hl. rewrite G by assumption.
    assert (E : forall p q r s, (p < cd_nao c)%nat -> (q < cd_nao c)%nat -> (r < cd_nao c)%nat -> (s < cd_nao c)%nat ->
      aget 0 eri [p; q; r; s] = sum naux (fun Q => aget 0 (cd_vec c) [Q; tri_pos p q] * aget 0 (cd_vec c) [Q; tri_pos r s])).
    { destruct Fit as [_ Fit]. intros p q r s Hp Hq Hr Hs. unfold tri_pos.
      destruct (Nat.le_ge_cases q p) as [L1|L1], (Nat.le_ge_cases s r) as [L2|L2].
      - rewrite (Nat.max_l p q), (Nat.min_r p q), (Nat.max_l r s), (Nat.min_r r s) by lia. apply (Fit p q r s); lia.
      - rewrite (Nat.max_l p q), (Nat.min_r p q), (Nat.max_r r s), (Nat.min_l r s) by lia. apply (Fit p q s r); lia.
      - rewrite (Nat.max_r p q), (Nat.min_l p q), (Nat.max_l r s), (Nat.min_r r s) by lia. apply (Fit q p r s); lia.
      - rewrite (Nat.max_r p q), (Nat.min_l p q), (Nat.max_r r s), (Nat.min_l r s) by lia. apply (Fit q p s r); lia. }
    transitivity (sum naux (fun Q => half_val c (f1 i) (f2 j) Q * half_val c (f3 k) (f4 l) Q)).
    { apply sum_ext. intros Q HQ. rewrite Ga, Gb by assumption. reflexivity. }
    unfold half_val, mulliken. set (n := cd_nao c) in *.
    transitivity (sum naux (fun Q => sum n (fun p => sum n (fun q => sum n (fun r => sum n (fun s =>
       (aget 0 (cd_vec c) [Q; tri_pos p q] * (f1 i p * f2 j q)) * (aget 0 (cd_vec c) [Q; tri_pos r s] * (f3 k r * f4 l s)))))))).
    { apply sum_ext. intros Q _. rewrite sum_r. apply sum_ext. intros p _. rewrite sum_r. apply sum_ext. intros q _.
      rewrite sum_l. apply sum_ext. intros r _. apply sum_l. }
    rewrite sum_swap. apply sum_ext. intros p Hp. rewrite sum_swap. apply sum_ext. intros q Hq. rewrite sum_swap. apply sum_ext. intros r Hr. rewrite sum_swap. apply sum_ext. intros s Hs.
    rewrite (E p q r s Hp Hq Hr Hs), sum_r. apply sum_ext. intros Q _. ring.
  Qed.
  (** The fitted integrals, blockwise, are the exact transformation of the fitted atomic-orbital integrals. *)
  Theorem fitted_is_exact (c : cderis F) ss cs naux eri h h' w x y z k1 k2 k3 k4 f1 f2 f3 f4 s1 s2 s3 s4 c1 c2 c3 c4 :
    ss = [s1; s2; s3; s4] -> cs = [c1; c2; c3; c4] -> plain_cderis c ss cs naux -> fitted c naux eri ->
    functions_of s1 c1 (cd_nao c) w k1 f1 -> functions_of s2 c2 (cd_nao c) x k2 f2 -> functions_of s3 c3 (cd_nao c) y k3 f3 -> functions_of s4 c4 (cd_nao c) z k4 f4 ->
    exists v, cderis_after c h [w; x; y; z] false = Ok v /\ reris_after (@mkreris F eri ss cs) h' [w; x; y; z] = Ok v.
  Proof.
    intros -> -> P Fit F1 F2 F3 F4.
    destruct (@cderis_value c s1 s2 s3 s4 c1 c2 c3 c4 naux eri h w x y z _ _ _ _ _ _ _ _ P Fit F1 F2 F3 F4) as (v & Ev & [Wv Sv] & Gv).
    destruct P as (_ & _ & L & B & _). destruct Fit as [A _].
    destruct (@reris_value (@mkreris F eri [s1; s2; s3; s4] [c1; c2; c3; c4]) s1 s2 s3 s4 c1 c2 c3 c4 (cd_nao c) h' w x y z _ _ _ _ _ _ _ _
      (conj eq_refl (conj eq_refl (conj L (conj B A)))) F1 F2 F3 F4) as (u & Eu & [Wu Su] & Gu).
    exists v. split; [exact Ev|]. rewrite Eu. f_equal. apply (@arr_ext F 0); try assumption; [congruence|].
    intros idx Hi. rewrite Su in Hi. apply inb4 in Hi. destruct Hi as (i & j & k & l & -> & Hi & Hj & Hk & Hl). rewrite Gu, Gv by assumption. reflexivity.
  Qed.
End Eris.
