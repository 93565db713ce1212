(** The Fock container: histories and values. *)
From Coq Require Import String Field.
From Verif Require Import Base ListAux Alg ArrModel ArrProofs TensorModel EinsumModel EinsumSpec EinAux SpaceModel SpaceSpec SpaceThms
  CcModel CcProofs CcThms CcRdm CcShift DampProofs HamModel HamSpec HamProofs.
Set Implicit Arguments.
Local Open Scope string_scope.
Local Open Scope list_scope.
Local Open Scope nat_scope.

Section Fock.
  Variable F : fld.
  Local Open Scope rng_scope.
  Local Open Scope py_scope.
  Add Field Ffield10 : (fth F).

  (** * Histories *)
  Definition shift_value (f : fock F) (e : elbos F) (key : pystr) (block : arr F) : result (arr F) :=
    g1 <- key_to_attr (elbos_block e (ch_b :: key)) ;;
    g2 <- key_to_attr (elbos_block e (ch_b :: rev key)) ;;
    g2t <- transpose r0 g2 [0; 2; 1]%nat ;; g <- plus_arr g1 g2t ;;
    xi <- match fk_xi f with Some x => Ok x | None => Err TypeError end ;;
    d <- np_einsum F [str "I"; str "Ipq"] (str "pq") [xi; g] ;; minus_arr block d.
  Definition pure_block (f : fock F) (key : pystr) : result (arr F) :=
    block <- fock_block f key ;;
    if fk_shift f then match fk_g f with None => Err AttributeError | Some e => shift_value f e key block end else Ok block.

  Definition g_sound (f : fock F) (gm : members F) : Prop := match fk_g f with None => True | Some e => sound (elbos_block e) gm end.
  Definition f_sound (f : fock F) (fm : members F) : Prop := forall k v, dget pystr_eq_dec k fm = Some v ->
    (forall v', pure_block f k = Ok v' -> v = v') /\ (fk_shift f = false -> pure_block f k = Ok v).
  Definition st_sound (f : fock F) (st : fstate F) : Prop := f_sound f (fst st) /\ g_sound f (snd st).

  Lemma f_sound_set f fm key v : f_sound f fm -> (forall v', pure_block f key = Ok v' -> v = v') ->
    (fk_shift f = false -> pure_block f key = Ok v) -> f_sound f (dset pystr_eq_dec key v fm).
  Proof.
    intros S H1 H2 k u. rewrite (@dget_dset _ _ pystr_eq_dec). destruct (pystr_eq_dec k key) as [->|]; [intros [= <-]; split; assumption|apply S].
  Qed.

  Lemma dset_twice (fm : members F) key u v : dset pystr_eq_dec key v (dset pystr_eq_dec key u fm) = dset pystr_eq_dec key v fm.
  Proof.
    induction fm as [|[k w] fm IH]; cbn.
    - destruct (pystr_eq_dec key key); [reflexivity|contradiction].
    - destruct (pystr_eq_dec key k) as [<-|N]; cbn.
      + destruct (pystr_eq_dec key key); [reflexivity|contradiction].
      + destruct (pystr_eq_dec key k); [contradiction|]. rewrite IH. reflexivity.
  Qed.

  Lemma fock_get_sound f key st : st_sound f st -> st_sound f (fst (fock_get f key st)) /\
    (forall v, pure_block f key = Ok v -> snd (fock_get f key st) = Ok v) /\
    (fk_shift f = false -> snd (fock_get f key st) = pure_block f key).
  Proof.
    destruct st as [fm gm]. intros [Sf Sg]. cbn [fst snd] in Sf, Sg. unfold fock_get.
    destruct (dget pystr_eq_dec key fm) as [v|] eqn:E.
    { cbn [fst snd]. split; [split; assumption|]. destruct (Sf key v E) as [P Q]. split; [intros v' H; f_equal; apply P, H|]. intros H. symmetry. apply Q, H. }
    destruct (fock_block f key) as [block|e] eqn:Eb.
    2: { cbn [fst snd]. unfold pure_block. rewrite Eb. cbn [bind]. split; [split; assumption|]. split; [discriminate|reflexivity]. }
    destruct (fk_shift f) eqn:Es.
    2: { cbn [fst snd]. assert (P : pure_block f key = Ok block) by (unfold pure_block; rewrite Eb, Es; reflexivity).
         split; [split; [apply f_sound_set; [exact Sf|congruence|intros _; exact P]|exact Sg]|]. split; [congruence|]. intros _. symmetry. exact P. }
    assert (P : pure_block f key = match fk_g f with None => Err AttributeError | Some e => shift_value f e key block end)
      by (unfold pure_block; rewrite Eb, Es; reflexivity).
    unfold fock_shift. destruct (fk_g f) as [e|] eqn:Eg.
    2: { cbn [fst snd]. split; [split; [|exact Sg]|].
         - apply f_sound_set; [exact Sf|rewrite P; discriminate|congruence].
         - split; [rewrite P; discriminate|discriminate]. }
    unfold g_sound in Sg. rewrite Eg in Sg. unfold elbos_get.
    destruct (@memo_sound (arr F) (elbos_block e) (ch_b :: key) gm Sg) as [S1 R1].
    destruct (memo (ch_b :: key) (elbos_block e (ch_b :: key)) gm) as [gm1 q1]. cbn [fst snd] in S1, R1. subst q1.
    destruct (@memo_sound (arr F) (elbos_block e) (ch_b :: rev key) gm1 S1) as [S2 R2].
    destruct (memo (ch_b :: rev key) (elbos_block e (ch_b :: rev key)) gm1) as [gm2 q2]. cbn [fst snd] in S2, R2. subst q2.
    unfold shift_value in P.
    destruct (key_to_attr (elbos_block e (ch_b :: key))) as [g1|x1]; cbn [bind] in P.
    2: { cbn [fst snd]. split; [split; [|unfold g_sound; cbn [snd]; rewrite Eg; exact S1]|].
         - apply f_sound_set; [exact Sf|rewrite P; discriminate|congruence].
         - split; [rewrite P; discriminate|discriminate]. }
    destruct (key_to_attr (elbos_block e (ch_b :: rev key))) as [g2|x2]; cbn [bind] in P.
    2: { cbn [fst snd]. split; [split; [|unfold g_sound; cbn [snd]; rewrite Eg; exact S2]|].
         - apply f_sound_set; [exact Sf|rewrite P; discriminate|congruence].
         - split; [rewrite P; discriminate|discriminate]. }
    match type of P with _ = ?t => match goal with |- context [match ?u with Ok _ => _ | Err _ => _ end] => change u with t end; destruct t as [b|x] end.
    - cbn [fst snd]. split; [split; [|unfold g_sound; cbn [snd]; rewrite Eg; exact S2]|].
      + rewrite dset_twice. apply f_sound_set; [exact Sf|congruence|congruence].
      + split; [congruence|discriminate].
    - cbn [fst snd]. split; [split; [|unfold g_sound; cbn [snd]; rewrite Eg; exact S2]|].
      + apply f_sound_set; [exact Sf|rewrite P; discriminate|congruence].
      + split; [rewrite P; discriminate|discriminate].
  Qed.
  Lemma access_step_sound f st a : st_sound f st -> st_sound f (access_step f st a).
  Proof.
    intros S. destruct a as [k|k]; cbn [access_step].
    - apply (@fock_get_sound f k st S).
    - destruct (fk_g f) as [e|] eqn:E; [|exact S]. destruct S as [Sf Sg]. split; cbn [fst snd]; [exact Sf|].
      unfold g_sound in *. rewrite E in *. apply memo_sound, Sg.
  Qed.
  Lemma empty_sound f : st_sound f ([], []).
  Proof. split; [intros k v H; discriminate|]. unfold g_sound. destruct (fk_g f); [apply sound_nil|exact I]. Qed.
  Lemma fold_sound f h st : st_sound f st -> st_sound f (fold_left (access_step f) h st).
  Proof. revert st. induction h as [|a h IH]; intros st S; cbn; [exact S|]. apply IH, access_step_sound, S. Qed.
  Lemma run_sound f h : st_sound f (access_run f h).
  Proof. apply fold_sound, empty_sound. Qed.

  Lemma fock_after_ok (f : fock F) h key v : pure_block f key = Ok v -> fock_after f h key = Ok v.
  Proof. intros H. unfold fock_after. destruct (@fock_get_sound f key (access_run f h) (run_sound f h)) as (_ & P & _). apply P, H. Qed.
  Lemma fock_after_nil (f : fock F) key : fock_after f [] key = pure_block f key.
  Proof.
    destruct (@fock_get_sound f key (access_run f []) (run_sound f [])) as (_ & P & Q). fold (fock_after f [] key) in P, Q.
    destruct (pure_block f key) as [v|e] eqn:E; [apply P; reflexivity|].
    destruct (fk_shift f) eqn:Es; [|apply Q; reflexivity].
    clear P Q. unfold pure_block in E. unfold fock_after, access_run, fock_get. cbn [fold_left dget].
    destruct (fock_block f key) as [b|x]; cbn [bind] in E; [|cbn [snd]; congruence]. rewrite Es in *. unfold fock_shift.
    destruct (fk_g f) as [eb|]; [|cbn [snd]; congruence]. unfold shift_value in E.
    unfold elbos_get.
    destruct (@memo_sound (arr F) (elbos_block eb) (ch_b :: key) [] (sound_nil _)) as [S1 R1].
    destruct (memo (ch_b :: key) (elbos_block eb (ch_b :: key)) []) as [gm1 q1]. cbn [fst snd] in S1, R1. subst q1.
    destruct (@memo_sound (arr F) (elbos_block eb) (ch_b :: rev key) gm1 S1) as [S2 R2].
    destruct (memo (ch_b :: rev key) (elbos_block eb (ch_b :: rev key)) gm1) as [gm2 q2]. cbn [fst snd] in S2, R2. subst q2.
    destruct (key_to_attr (elbos_block eb (ch_b :: key))) as [g1|x1]; cbn [bind] in E; [|cbn [snd]; congruence].
    destruct (key_to_attr (elbos_block eb (ch_b :: rev key))) as [g2|x2]; cbn [bind] in E; [|cbn [snd]; congruence].
    match type of E with ?t = _ => match goal with |- context [match ?u with Ok _ => _ | Err _ => _ end] => change u with t end; rewrite E end.
    reflexivity.
  Qed.
  Theorem history_ok (f : fock F) h key b : fock_after f [] key = Ok b -> fock_after f h key = Ok b.
  Proof. rewrite fock_after_nil. apply fock_after_ok. Qed.
  Theorem history_plain (f : fock F) h key : fk_shift f = false -> fock_after f h key = fock_after f [] key.
  Proof. intros E. rewrite fock_after_nil. unfold fock_after. apply (@fock_get_sound f key (access_run f h) (run_sound f h)), E. Qed.
  Theorem history_g (f : fock F) e h key : fk_g f = Some e -> g_after f e h key = g_after f e [] key.
  Proof.
    intros E. destruct (@run_sound f h) as [_ S]. destruct (@run_sound f []) as [_ S']. unfold g_sound in S, S'. rewrite E in S, S'.
    unfold g_after, elbos_get. transitivity (elbos_block e key); [|symmetry]; apply (@memo_sound (arr F) (elbos_block e) key); assumption.
  Qed.

  (** * Values *)
  Lemma inb_seq n i : (i < n)%nat -> nth i (seq 0 n) 0%nat = i.
  Proof. intros H. rewrite seq_nth by exact H. lia. Qed.

  Lemma eye_ok n : array_of [n; n] (eye F n) /\ forall i j, (i < n)%nat -> (j < n)%nat -> aget 0 (eye F n) [i; j] = if (i =? j)%nat then 1 else 0.
  Proof.
    unfold eye. split; [split; [apply tab_wf|reflexivity]|]. intros i j Hi Hj. rewrite (@aget_tab F 0) by (apply inb2; exists i, j; tauto). reflexivity.
  Qed.
  (** The columns of a matrix. *)
  Lemma columns_ok (C : arr F) n m sl l : array_of [n; m] C -> axis_positions m sl = l ->
    exists x, index_slices 0 C [None; Some sl] = Ok x /\ array_of [n; length l] x /\
      forall i j, (i < n)%nat -> (j < length l)%nat -> aget 0 x [i; j] = aget 0 C [i; nth j l 0%nat].
  Proof.
    intros [W S] E. unfold index_slices. rewrite S. cbn [List.length Nat.ltb Nat.leb]. cbn [Nat.sub repeat app combine map fst snd]. rewrite E.
    destruct (@gather_ok F 0 C [seq 0 n; l]) as (Wg & Sg & G). cbn [map] in Sg, G. rewrite seq_length in Sg, G.
    eexists. split; [reflexivity|]. split; [split; assumption|]. intros i j Hi Hj. rewrite G by (apply inb2; exists i, j; tauto).
    cbn [combine map fst snd]. rewrite inb_seq by exact Hi. reflexivity.
  Qed.
  Lemma coeff_ok spaces coeffs off i c s C nao k w : item spaces (i + off) = Ok s -> item coeffs (i + off) = Ok C -> orbital_basis s C nao ->
    functions_of s C nao c k w ->
    exists x, get_coeff F spaces coeffs off (i, c) = Ok x /\ array_of [nao; k] x /\
      forall mu j, (mu < nao)%nat -> (j < k)%nat -> aget 0 x [mu; j] = w j mu.
  Proof.
    intros Es Ec (A & N & W & S) H. unfold get_coeff. rewrite Ec. cbn [bind]. destruct H as [(-> & -> & Hw)|(a & b & O & -> & Hw)].
    - rewrite Nat.eqb_refl, S. cbn [nth]. destruct (eye_ok nao) as [We Ge]. eexists. split; [reflexivity|]. split; [exact We|].
      intros mu j Hm Hj. rewrite Ge, Hw by assumption. rewrite Nat.eqb_sym. reflexivity.
    - destruct (Nat.eqb_spec c ch_p) as [->|_].
      { exfalso. destruct O as [K _]. revert K. unfold known_char. cbn. unfold ch_p, ch_x, ch_o, ch_O, ch_i, ch_v, ch_V, ch_a. intros K. repeat destruct K as [K|K]; try discriminate; contradiction. }
      rewrite Es. cbn [bind]. destruct (@slice_run s c a b A N O) as (sl & E & P). rewrite E. cbn [bind].
      destruct (@columns_ok C nao (nmo s) sl _ (conj W S) P) as (x & Ex & Vx & G). rewrite seq_length in Vx, G.
      exists x. split; [exact Ex|]. split; [exact Vx|]. intros mu j Hm Hj. rewrite G, Hw by assumption. rewrite seq_nth by assumption. reflexivity.
  Qed.

  Definition quad (nao : nat) (m : arr F) (u v : nat -> F) : F := sum nao (fun p => sum nao (fun q => aget 0 m [p; q] * (u p * v q))).
  Lemma transform2_ok (m x y : arr F) n k l : array_of [n; n] m -> array_of [n; k] x -> array_of [n; l] y ->
    exists r, np_einsum F [str "pq"; str "pi"; str "qj"] (str "ij") [m; x; y] = Ok r /\ array_of [k; l] r /\
      forall i j, (i < k)%nat -> (j < l)%nat -> aget 0 r [i; j] = quad n m (fun p => aget 0 x [p; i]) (fun q => aget 0 y [q; j]).
  Proof.
    intros [Wm Sm] [Wx Sx] [Wy Sy]. set (sz := env_of (str "pqij") [n; n; k; l]).
    destruct (@np_value F sz [str "pq"; str "pi"; str "qj"] (str "ij") (str "pq") [m; x; y]) as (r & E & Wr & Sr & G).
    - vm_compute. reflexivity.
    - repeat constructor; try assumption.
    - exists r. change (map sz (str "ij")) with [k; l] in Sr, G. split; [exact E|]. split; [split; assumption|].
      intros i j Hi Hj. rewrite G by (apply inb2; exists i, j; tauto). change (map sz (str "pq")) with [n; n].
      rewrite rsum_all_cons. unfold quad, sum. apply rsum_map_ext. intros p _. rewrite rsum_all_cons. apply rsum_map_ext. intros q _. rewrite rsum_all_nil.
      unfold product_term, rprod. cbn [combine map fst snd fold_right app].
      change (map (env_of (str "ij" ++ str "pq") [i; j; p; q]) (str "pq")) with [p; q].
      change (map (env_of (str "ij" ++ str "pq") [i; j; p; q]) (str "pi")) with [p; i].
      change (map (env_of (str "ij" ++ str "pq") [i; j; p; q]) (str "qj")) with [q; j]. ring.
  Qed.

  Lemma quad_ext n m u u' v v' : (forall p, (p < n)%nat -> u p = u' p) -> (forall p, (p < n)%nat -> v p = v' p) -> quad n m u v = quad n m u' v'.
  Proof.
    intros Hu Hv. unfold quad, sum. apply rsum_map_ext. intros p Hp. apply rsum_map_ext. intros q Hq. apply in_seq in Hp, Hq.
    rewrite Hu, Hv by lia. reflexivity.
  Qed.
  Lemma quad_swap n m u v : symmetric n m -> quad n m u v = quad n m v u.
  Proof.
    intros S. unfold quad, sum. rewrite rsum_swap. apply rsum_map_ext. intros p Hp. apply rsum_map_ext. intros q Hq. apply in_seq in Hp, Hq.
    rewrite (S q p) by lia. ring.
  Qed.
  Lemma fock_block_ok (f : fock F) s C nao x y k l u v : orbital_basis s C nao -> fk_spaces f = [s; s] -> fk_coeffs f = [C; C] ->
    array_of [nao; nao] (fk_ao f) -> functions_of s C nao x k u -> functions_of s C nao y l v ->
    exists b, fock_block f [x; y] = Ok b /\ array_of [k; l] b /\
      forall i j, (i < k)%nat -> (j < l)%nat -> aget 0 b [i; j] = quad nao (fk_ao f) (u i) (v j).
  Proof.
    intros B Es Ec A X Y. unfold fock_block, get_coeffs. rewrite Es, Ec. cbn [List.length seq combine mapM].
    destruct (@coeff_ok [s; s] [C; C] 0 0 x s C nao k u eq_refl eq_refl B X) as (cx & Ex & Vx & Gx).
    destruct (@coeff_ok [s; s] [C; C] 0 1 y s C nao l v eq_refl eq_refl B Y) as (cy & Ey & Vy & Gy).
    rewrite Ex, Ey. cbn [bind]. destruct (@transform2_ok (fk_ao f) cx cy nao k l A Vx Vy) as (b & Eb & Vb & G).
    exists b. split; [exact Eb|]. split; [exact Vb|]. intros i j Hi Hj. rewrite G by assumption.
    apply quad_ext; intros p Hp; [apply Gx|apply Gy]; assumption.
  Qed.

  (** Blocks of the coupling. *)
  Lemma not_p s c a b : orbitals_from s c a b -> (ch_p =? c)%nat = false.
  Proof.
    intros [K _]. apply Nat.eqb_neq. intros <-. revert K. unfold known_char. cbn. unfold ch_p, ch_x, ch_o, ch_O, ch_i, ch_v, ch_V, ch_a.
    intros K. repeat destruct K as [K|K]; try discriminate; contradiction.
  Qed.
  Lemma elbos_block_ok (e : elbos F) s nb x y a1 b1 a2 b2 : accepted s -> (0 < nmo s)%nat -> eb_spaces e = [s; s] -> array_of [nb; nmo s; nmo s] (eb_g e) ->
    orbitals_from s x a1 b1 -> orbitals_from s y a2 b2 ->
    exists r, elbos_block e [ch_b; x; y] = Ok r /\ array_of [nb; b1 - a1; b2 - a2]%nat r /\
      forall I i j, (I < nb)%nat -> (i < b1 - a1)%nat -> (j < b2 - a2)%nat -> aget 0 r [I; i; j] = aget 0 (eb_g e) [I; a1 + i; a2 + j]%nat.
  Proof.
    intros A N Es [W S] X Y. unfold elbos_block. cbn [item nth_error bind]. rewrite Nat.eqb_refl. cbn [negb].
    unfold memb. cbn [existsb]. change (ch_p =? ch_b)%nat with false. rewrite (not_p X), (not_p Y). cbn [orb].
    rewrite Es. unfold get_slices. cbn [skipn combine mapM fst snd].
    destruct (@slice_run s x a1 b1 A N X) as (sx & Ex & Px). destruct (@slice_run s y a2 b2 A N Y) as (sy & Ey & Py).
    rewrite Ex, Ey. cbn [bind map]. unfold index_slices. rewrite S. cbn [List.length Nat.ltb Nat.leb Nat.sub repeat app combine map fst snd].
    rewrite Px, Py. destruct (@gather_ok F 0 (eb_g e) [seq 0 nb; seq a1 (b1 - a1); seq a2 (b2 - a2)]) as (Wg & Sg & G).
    cbn [map] in Sg, G. rewrite !seq_length in Sg, G. eexists. split; [reflexivity|]. split; [split; assumption|].
    intros I i j HI Hi Hj. rewrite G by (apply inb3; exists I, i, j; tauto). cbn [combine map fst snd]. rewrite !seq_nth by assumption. reflexivity.
  Qed.
  Lemma shift_einsum (xi g : arr F) nb k l : array_of [nb] xi -> array_of [nb; k; l] g ->
    exists r, np_einsum F [str "I"; str "Ipq"] (str "pq") [xi; g] = Ok r /\ array_of [k; l] r /\
      forall i j, (i < k)%nat -> (j < l)%nat -> aget 0 r [i; j] = sum nb (fun I => aget 0 xi [I] * aget 0 g [I; i; j]).
  Proof.
    intros [Wx Sx] [Wg Sg]. set (sz := env_of (str "Ipq") [nb; k; l]).
    destruct (@np_value F sz [str "I"; str "Ipq"] (str "pq") (str "I") [xi; g]) as (r & E & Wr & Sr & G).
    - vm_compute. reflexivity.
    - repeat constructor; try assumption.
    - exists r. change (map sz (str "pq")) with [k; l] in Sr, G. split; [exact E|]. split; [split; assumption|].
      intros i j Hi Hj. rewrite G by (apply inb2; exists i, j; tauto). change (map sz (str "I")) with [nb].
      rewrite rsum_all_cons. unfold sum. apply rsum_map_ext. intros I _. rewrite rsum_all_nil.
      unfold product_term, rprod. cbn [combine map fst snd fold_right app].
      change (map (env_of (str "pq" ++ str "I") [i; j; I]) (str "I")) with [I].
      change (map (env_of (str "pq" ++ str "I") [i; j; I]) (str "Ipq")) with [I; i; j]. ring.
  Qed.

  Theorem plain_value (f : fock F) s C nao h x y k l u v : plain_fock f s C nao -> functions_of s C nao x k u -> functions_of s C nao y l v ->
    exists b, fock_after f h [x; y] = Ok b /\ array_of [k; l] b /\
      forall i j, (i < k)%nat -> (j < l)%nat -> aget 0 b [i; j] = sum nao (fun p => sum nao (fun q => aget 0 (fk_ao f) [p; q] * (u i p * v j q))).
  Proof.
    intros (B & Es & Ec & A & Sh) X Y. destruct (@fock_block_ok f s C nao x y k l u v B Es Ec A X Y) as (b & E & V & G).
    exists b. split; [|split; [exact V|exact G]]. apply fock_after_ok. unfold pure_block. rewrite E, Sh. reflexivity.
  Qed.
  Lemma mo_functions s (C : arr F) nao c a b : orbitals_from s c a b -> functions_of s C nao c (b - a) (fun i mu => aget 0 C [mu; a + i]%nat).
  Proof. intros O. right. exists a, b. split; [exact O|]. split; [reflexivity|]. reflexivity. Qed.
  Theorem shifted_value (f : fock F) s C nao nb g xi h x y a1 b1 a2 b2 : shifted_fock f s C nao nb g xi -> orbitals_from s x a1 b1 -> orbitals_from s y a2 b2 ->
    exists b, fock_after f h [x; y] = Ok b /\ array_of [b1 - a1; b2 - a2]%nat b /\
      forall i j, (i < b1 - a1)%nat -> (j < b2 - a2)%nat -> aget 0 b [i; j] =
        sum nao (fun p => sum nao (fun q => aget 0 (fk_ao f) [p; q] * (aget 0 C [p; a1 + i]%nat * aget 0 C [q; a2 + j]%nat))) -
        sum nb (fun I => aget 0 xi [I] * (aget 0 g [I; a1 + i; a2 + j]%nat + aget 0 g [I; a2 + j; a1 + i]%nat)).
  Proof.
    intros (B & Es & Ec & A & Sh & Eg & Ex & Vg & Vx) X Y.
    destruct (@fock_block_ok f s C nao x y _ _ _ _ B Es Ec A (mo_functions C nao X) (mo_functions C nao Y)) as (b & E & V & G).
    destruct B as (Acc & N & _).
    destruct (@elbos_block_ok (@mkelbos F g [s; s]) s nb x y a1 b1 a2 b2 Acc N eq_refl Vg X Y) as (g1 & E1 & [W1 S1] & G1).
    destruct (@elbos_block_ok (@mkelbos F g [s; s]) s nb y x a2 b2 a1 b1 Acc N eq_refl Vg Y X) as (g2 & E2 & [W2 S2] & G2). cbn [eb_g] in G1, G2.
    destruct (@transpose_get F g2 [0; 2; 1]%nat) as (t & Et & Wt & St & Gt); [rewrite S2; apply (proj1 (is_perm_iff 3 [0; 2; 1]%nat)); reflexivity|].
    rewrite S2 in St. cbn [map nth] in St.
    destruct (@zip_ok F radd g1 t W1 Wt ltac:(congruence)) as (gg & Egg & Wgg & Sgg & Ggg). rewrite S1 in Sgg, Ggg.
    destruct (@shift_einsum xi gg nb _ _ Vx (conj Wgg Sgg)) as (d & Ed & [Wd Sd] & Gd). destruct V as [Wb Sb].
    destruct (@zip_ok F rsub b d Wb Wd ltac:(congruence)) as (r & Er & Wr & Sr & Gr). rewrite Sb in Sr, Gr.
    exists r. split.
    { apply fock_after_ok. unfold pure_block, shift_value. rewrite E, Sh, Eg. cbn [bind]. cbn [rev app]. rewrite E1, E2. cbn [key_to_attr bind]. rewrite Et. cbn [bind].
      unfold plus_arr. rewrite Egg, Ex. cbn [bind]. rewrite Ed. cbn [bind]. exact Er. }
    split; [split; assumption|]. intros i j Hi Hj. rewrite Gr by (apply inb2; exists i, j; tauto). rewrite G, Gd by assumption. unfold quad.
    f_equal. unfold sum. apply rsum_map_ext. intros I HI. apply in_seq in HI. f_equal.
    rewrite Ggg by (apply inb3; exists I, i, j; repeat split; lia). rewrite G1 by (assumption || lia). f_equal.
    rewrite Gt by (rewrite St; apply inb3; exists I, i, j; repeat split; lia). apply G2; lia.
  Qed.

  Theorem plain_transposed (f : fock F) s C nao h1 h2 x y k l u v : plain_fock f s C nao -> symmetric nao (fk_ao f) ->
    functions_of s C nao x k u -> functions_of s C nao y l v ->
    exists a b, fock_after f h1 [x; y] = Ok a /\ fock_after f h2 [y; x] = Ok b /\ mutual_transposes a b.
  Proof.
    intros P S X Y. destruct (@plain_value f s C nao h1 x y k l u v P X Y) as (a & Ea & Va & Ga).
    destruct (@plain_value f s C nao h2 y x l k v u P Y X) as (b & Eb & Vb & Gb).
    exists a, b. split; [exact Ea|]. split; [exact Eb|]. exists k, l. split; [exact Va|]. split; [exact Vb|].
    intros i j Hi Hj. rewrite Ga, Gb by assumption. exact (@quad_swap nao (fk_ao f) (u i) (v j) S).
  Qed.
  Theorem shifted_transposed (f : fock F) s C nao nb g xi h1 h2 x y a1 b1 a2 b2 : shifted_fock f s C nao nb g xi -> symmetric nao (fk_ao f) ->
    orbitals_from s x a1 b1 -> orbitals_from s y a2 b2 ->
    exists a b, fock_after f h1 [x; y] = Ok a /\ fock_after f h2 [y; x] = Ok b /\ mutual_transposes a b.
  Proof.
    intros P S X Y. destruct (@shifted_value f s C nao nb g xi h1 x y _ _ _ _ P X Y) as (a & Ea & Va & Ga).
    destruct (@shifted_value f s C nao nb g xi h2 y x _ _ _ _ P Y X) as (b & Eb & Vb & Gb).
    exists a, b. split; [exact Ea|]. split; [exact Eb|]. eexists _, _. split; [exact Va|]. split; [exact Vb|].
    intros i j Hi Hj. rewrite Ga, Gb by assumption. f_equal.
    - exact (@quad_swap nao (fk_ao f) (fun p => aget 0 C [p; a1 + i]%nat) (fun q => aget 0 C [q; a2 + j]%nat) S).
    - unfold sum. apply rsum_map_ext. intros I _. ring.
  Qed.

  (** * Unrestricted *)
  Definition of_spin (spin : pystr) (h : list (pystr * access)) : list access :=
    map snd (filter (fun p => streqb (fst p) spin) h).
  Lemma streqb_iff a b : streqb a b = true <-> a = b.
  Proof. unfold streqb. destruct (pystr_eq_dec a b); split; congruence. Qed.
  Lemma u_run_sub (u : ufock F) spin f h st : u_part u spin = Ok f ->
    u_sub spin (fold_left (u_step u) h st) = fold_left (access_step f) (of_spin spin h) (u_sub spin st).
  Proof.
    intros E. revert st. induction h as [|[s a] h IH]; intros st; [reflexivity|]. cbn [fold_left]. rewrite IH.
    unfold of_spin. cbn [filter fst]. destruct (streqb s spin) eqn:Es.
    - apply streqb_iff in Es. subst s. cbn [map fold_left snd]. f_equal. unfold u_step. rewrite E. unfold u_sub at 1.
      rewrite (@dget_dset _ _ pystr_eq_dec). destruct (pystr_eq_dec spin spin); [reflexivity|contradiction].
    - f_equal. unfold u_step. destruct (u_part u s); [|reflexivity]. unfold u_sub at 1. rewrite (@dget_dset _ _ pystr_eq_dec).
      destruct (pystr_eq_dec spin s) as [->|]; [|reflexivity]. unfold streqb in Es. destruct (pystr_eq_dec s s); [discriminate|contradiction].
  Qed.
  Theorem u_after (u : ufock F) spin f h key : u_part u spin = Ok f -> u_fock_after u h spin key = fock_after f (of_spin spin h) key.
  Proof.
    intros E. unfold u_fock_after, u_fock_get. rewrite E. unfold u_run. rewrite (@u_run_sub u spin f h [] E). unfold fock_after, access_run.
    change (u_sub spin []) with (([], []) : fstate F). destruct (fock_get f key (fold_left (access_step f) (of_spin spin h) ([], []))). reflexivity.
  Qed.

  Lemma index_first_ok (a : arr F) n s i : array_of (n :: s) a -> (i < n)%nat ->
    exists b, index_first a i = Ok b /\ array_of s b /\ forall idx, inb s idx -> aget 0 b idx = aget 0 a (i :: idx).
  Proof.
    intros [W Sh] Hi. unfold index_first. rewrite Sh. rewrite (proj2 (Nat.ltb_lt i n) Hi). eexists. split; [reflexivity|].
    unfold wf in W. rewrite Sh in W. change (prodn (n :: s)) with (n * prodn s)%nat in W.
    assert (L : (i * prodn s + prodn s <= n * prodn s)%nat). { replace (i * prodn s + prodn s)%nat with (S i * prodn s)%nat by lia. apply Nat.mul_le_mono_r. lia. }
    split; [split; [|reflexivity]|].
    - unfold wf. cbn [shp dat]. unfold slice. rewrite firstn_length, skipn_length, W. cbn [Nat.mul]. lia.
    - intros idx H. unfold aget. cbn [shp dat]. rewrite Sh. unfold slice. rewrite nth_first by (pose proof (ravel_lt H); cbn [Nat.mul]; lia).
      rewrite nth_skip. reflexivity.
  Qed.

  Lemma u_part_ok (u : ufock F) spin i : spin_key spin i ->
    u_part u spin = (g <- u_elbos u i ;; Ok (mkfock (pick (uf_ao u) i) [pick (uf_space u) i; pick (uf_space u) i] [pick (uf_coeff u) i; pick (uf_coeff u) i] g (uf_shift u) (uf_xi u)))%py.
  Proof. intros [[-> ->]|[-> ->]]; reflexivity. Qed.
  Lemma u_elbos_ok (u : ufock F) i g nb n w : (i < 2)%nat -> uf_g u = Some g -> spin_coupling g i nb n w ->
    exists gi, u_elbos u i = Ok (Some (@mkelbos F gi [pick (uf_space u) i; pick (uf_space u) i])) /\ array_of [nb; n; n] gi /\
      forall I p q, (I < nb)%nat -> (p < n)%nat -> (q < n)%nat -> aget 0 gi [I; p; q] = w I p q.
  Proof.
    intros Hi E [[[W S] H]|[[W S] H]]; unfold u_elbos; rewrite E, S; cbn [List.length Nat.eqb bind].
    - exists g. split; [reflexivity|]. split; [split; assumption|]. intros I p q _ _ _. symmetry. apply H.
    - destruct (@index_first_ok g 2 [nb; n; n] i (conj W S) Hi) as (gi & Eg & V & G). rewrite Eg. cbn [bind]. exists gi. split; [reflexivity|]. split; [exact V|].
      intros I p q HI Hp Hq. rewrite H. apply G. apply inb3. exists I, p, q. tauto.
  Qed.
  Lemma spin_key_lt spin i : spin_key spin i -> (i < 2)%nat. Proof. intros [[_ ->]|[_ ->]]; lia. Qed.

  Lemma u_plain_part (u : ufock F) spin i nao : spin_key spin i -> u_plain u i nao ->
    exists f, u_part u spin = Ok f /\ plain_fock f (pick (uf_space u) i) (pick (uf_coeff u) i) nao /\ fk_ao f = pick (uf_ao u) i.
  Proof.
    intros K ([B A] & Sh & Hg). rewrite (u_part_ok u K).
    assert (G : exists g, u_elbos u i = Ok g).
    { destruct Hg as [E|(g & nb & w & E & H)]; [exists None; unfold u_elbos; rewrite E; reflexivity|].
      destruct (@u_elbos_ok u i g nb _ w (spin_key_lt K) E H) as (gi & X & _). eexists. exact X. }
    destruct G as [g ->]. cbn [bind]. eexists. split; [reflexivity|]. split; [|reflexivity]. repeat split; try apply B; try apply A. exact Sh.
  Qed.
  Theorem u_plain_value (u : ufock F) h spin i nao x y k l v w : spin_key spin i -> u_plain u i nao ->
    functions_of (pick (uf_space u) i) (pick (uf_coeff u) i) nao x k v -> functions_of (pick (uf_space u) i) (pick (uf_coeff u) i) nao y l w ->
    exists b, u_fock_after u h spin [x; y] = Ok b /\ array_of [k; l] b /\
      forall a c, (a < k)%nat -> (c < l)%nat -> aget 0 b [a; c] = sum nao (fun p => sum nao (fun q => aget 0 (pick (uf_ao u) i) [p; q] * (v a p * w c q))).
  Proof.
    intros K P X Y. destruct (@u_plain_part u spin i nao K P) as (f & E & Pf & A).
    destruct (@plain_value f _ _ nao (of_spin spin h) x y k l v w Pf X Y) as (b & Eb & V & G). exists b.
    rewrite (@u_after u spin f h [x; y] E). rewrite A in G. split; [exact Eb|]. split; [exact V|exact G].
  Qed.
  Theorem u_plain_transposed (u : ufock F) h1 h2 spin i nao x y k l v w : spin_key spin i -> u_plain u i nao -> symmetric nao (pick (uf_ao u) i) ->
    functions_of (pick (uf_space u) i) (pick (uf_coeff u) i) nao x k v -> functions_of (pick (uf_space u) i) (pick (uf_coeff u) i) nao y l w ->
    exists a b, u_fock_after u h1 spin [x; y] = Ok a /\ u_fock_after u h2 spin [y; x] = Ok b /\ mutual_transposes a b.
  Proof.
    intros K P S X Y. destruct (@u_plain_part u spin i nao K P) as (f & E & Pf & A). rewrite <- A in S.
    destruct (@plain_transposed f _ _ nao (of_spin spin h1) (of_spin spin h2) x y k l v w Pf S X Y) as (a & b & Ea & Eb & T).
    exists a, b. rewrite !(@u_after u spin f _ _ E). tauto.
  Qed.
  Lemma u_shifted_part (u : ufock F) spin i nao nb w xi : spin_key spin i -> u_shifted u i nao nb w xi ->
    exists f g, u_part u spin = Ok f /\ shifted_fock f (pick (uf_space u) i) (pick (uf_coeff u) i) nao nb g xi /\ fk_ao f = pick (uf_ao u) i /\
      (forall I p q, (I < nb)%nat -> (p < nmo (pick (uf_space u) i))%nat -> (q < nmo (pick (uf_space u) i))%nat -> aget 0 g [I; p; q] = w I p q).
  Proof.
    intros K ([B A] & Sh & Ex & Vx & g & Eg & C). rewrite (u_part_ok u K).
    destruct (@u_elbos_ok u i g nb _ w (spin_key_lt K) Eg C) as (gi & -> & V & G). cbn [bind]. eexists. exists gi. split; [reflexivity|].
    split; [|split; [reflexivity|exact G]]. unfold shifted_fock. cbn [fk_spaces fk_coeffs fk_ao fk_shift fk_g fk_xi]. tauto.
  Qed.
  Theorem u_shifted_value (u : ufock F) h spin i nao nb w xi x y a1 b1 a2 b2 : spin_key spin i -> u_shifted u i nao nb w xi ->
    orbitals_from (pick (uf_space u) i) x a1 b1 -> orbitals_from (pick (uf_space u) i) y a2 b2 ->
    exists b, u_fock_after u h spin [x; y] = Ok b /\ array_of [b1 - a1; b2 - a2]%nat b /\
      forall c d, (c < b1 - a1)%nat -> (d < b2 - a2)%nat -> aget 0 b [c; d] =
        sum nao (fun p => sum nao (fun q => aget 0 (pick (uf_ao u) i) [p; q] *
          (aget 0 (pick (uf_coeff u) i) [p; a1 + c]%nat * aget 0 (pick (uf_coeff u) i) [q; a2 + d]%nat))) -
        sum nb (fun I => aget 0 xi [I] * (w I (a1 + c)%nat (a2 + d)%nat + w I (a2 + d)%nat (a1 + c)%nat)).
  Proof.
    intros K P X Y. destruct (@u_shifted_part u spin i nao nb w xi K P) as (f & g & E & Pf & A & G).
    destruct (@shifted_value f _ _ nao nb g xi (of_spin spin h) x y _ _ _ _ Pf X Y) as (b & Eb & V & Gb). exists b.
    rewrite (@u_after u spin f h [x; y] E). rewrite A in Gb. split; [exact Eb|]. split; [exact V|]. intros c d Hc Hd. rewrite Gb by assumption. f_equal.
    destruct X as (_ & _ & DX). destruct Y as (_ & _ & DY).
    assert (Nx : (a1 + c < nmo (pick (uf_space u) i))%nat) by (apply DX; lia). assert (Ny : (a2 + d < nmo (pick (uf_space u) i))%nat) by (apply DY; lia).
    unfold sum. apply rsum_map_ext. intros I HI. apply in_seq in HI. rewrite !G by (assumption || lia). reflexivity.
  Qed.
  Theorem u_shifted_transposed (u : ufock F) h1 h2 spin i nao nb w xi x y a1 b1 a2 b2 : spin_key spin i -> u_shifted u i nao nb w xi ->
    symmetric nao (pick (uf_ao u) i) -> orbitals_from (pick (uf_space u) i) x a1 b1 -> orbitals_from (pick (uf_space u) i) y a2 b2 ->
    exists a b, u_fock_after u h1 spin [x; y] = Ok a /\ u_fock_after u h2 spin [y; x] = Ok b /\ mutual_transposes a b.
  Proof.
    intros K P S X Y. destruct (@u_shifted_part u spin i nao nb w xi K P) as (f & g & E & Pf & A & _). rewrite <- A in S.
    destruct (@shifted_transposed f _ _ nao nb g xi (of_spin spin h1) (of_spin spin h2) x y _ _ _ _ Pf S X Y) as (a & b & Ea & Eb & T).
    exists a, b. rewrite !(@u_after u spin f _ _ E). tauto.
  Qed.
  Theorem u_history (u : ufock F) h spin key b : u_fock_after u [] spin key = Ok b -> u_fock_after u h spin key = Ok b.
  Proof.
    destruct (u_part u spin) as [f|e] eqn:E.
    - rewrite !(@u_after u spin f _ _ E). apply history_ok.
    - unfold u_fock_after, u_fock_get. rewrite E. tauto.
  Qed.
  Theorem u_history_plain (u : ufock F) h spin key : uf_shift u = false -> u_fock_after u h spin key = u_fock_after u [] spin key.
  Proof.
    intros Sh. destruct (u_part u spin) as [f|e] eqn:E.
    - rewrite !(@u_after u spin f _ _ E). apply history_plain. revert E. unfold u_part.
      destruct (negb _); [discriminate|]. destruct (item spin 0); [|discriminate]. cbn [bind]. destruct (spin_index a) as [i|]; [|discriminate]. cbn [bind].
      destruct (u_elbos u i); [|discriminate]. cbn [bind]. intros [= <-]. exact Sh.
    - unfold u_fock_after, u_fock_get. rewrite E. reflexivity.
  Qed.
End Fock.
