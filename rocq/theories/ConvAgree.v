(** Generated functions with converted amplitudes. *)
From Coq Require Import String Permutation List.
From Verif Require Import Base Alg ArrModel PermModel TensorModel AnsatzModel ConvModel ConvSpec ConvNames ConvRes ConvGen
  EinsumModel EinPathSpec CgModel CgSpec CgFormSpec CgCompare CgNames CgTables CgPairs CgAgree CgOrderSpec CgOrder.
Set Implicit Arguments.
Local Open Scope list_scope.

Definition block_kinds (p : prog) : bool :=
  forallb (fun r => forallb (fun l => forallb (fun n => if Pos.eqb (fst r) (fst n) then
    match kinds_of (fst r) with Some cs => if list_eq_dec Nat.eq_dec cs (snd r) then true else false | None => false end else true) (block_names l)) [true; false]) (p_in p).
Lemma all_block_kinds : forallb (fun r => block_kinds (snd (snd r))) (restricted_unrestricted ++ restricted_unrestricted_rounded) = true.
Proof. vm_compute. reflexivity. Qed.
Lemma block_kinds_ok p lams x cs nm : block_kinds p = true -> In (x, cs) (p_in p) -> In (x, nm) (block_names lams) -> kinds_of x = Some cs.
Proof.
  unfold block_kinds. rewrite forallb_forall. intros H Hx Hn. specialize (H _ Hx). rewrite forallb_forall in H.
  assert (Hl : In lams [true; false]) by (destruct lams; cbn; auto). specialize (H _ Hl). rewrite forallb_forall in H. specialize (H _ Hn).
  cbn [fst snd] in H. rewrite Pos.eqb_refl in H. destruct (kinds_of x) as [cs'|]; [|discriminate]. destruct (list_eq_dec Nat.eq_dec cs' cs) as [->|]; [reflexivity|discriminate].
Qed.
Lemma in_block_names x : (exists lams nm, In (x, nm) (block_names lams)) \/ (forall lams nm, ~ In (x, nm) (block_names lams)).
Proof.
  destruct (in_dec Pos.eq_dec x (map fst (block_names true))) as [H|H].
  { left. apply in_map_iff in H as ([y nm] & <- & H). exists true, nm. exact H. }
  destruct (in_dec Pos.eq_dec x (map fst (block_names false))) as [H'|H'].
  { left. apply in_map_iff in H' as ([y nm] & <- & H'). exists false, nm. exact H'. }
  right. intros lams nm Hn. apply (in_map fst) in Hn. destruct lams; contradiction.
Qed.

Lemma converted_given name p q : In (name, (p, q)) (restricted_unrestricted ++ restricted_unrestricted_rounded) ->
  forall (F : fld) sz, characteristic_zero F -> splits sz closed_split ->
  forall a amps u (eB e2 : env F), singles_doubles a -> symmetric sz spatial_symmetries spatial eB -> restricted_amplitudes sz amps eB ->
  (forall lams, from_rebcc F lams a (amps lams) = Ok (u lams)) ->
  args_ok sz (p_in q) e2 -> unrestricted_arguments sz eB u (p_in q) e2 ->
  forall x cs, In (x, cs) (p_in q) -> given_by sz closed_split closed_shell eB x cs (tens F (e2 x)).
Proof.
  intros Hin F sz H0 Hs a amps u eB e2 Ha HS HB Hu A2 C x cs Hx.
  destruct (C x cs Hx) as (C1 & C2). destruct (in_block_names x) as [(lams & [nm comb] & Hn)|Hn]; [|exact (C2 Hn)].
  pose proof (C1 _ _ _ Hn) as E. destruct (A2 _ _ Hx) as (v & Ev & _). rewrite Ev in *.
  eapply from_rebcc_given; try eassumption; [symmetry; exact E|].
  pose proof all_block_kinds as K. rewrite forallb_forall in K. specialize (K _ Hin). exact (@block_kinds_ok _ _ _ _ _ K Hx Hn).
Qed.

Lemma from_rebcc_same name p q : In (name, (p, q)) restricted_unrestricted ->
  forall (F : fld) sz, characteristic_zero F -> splits sz closed_split ->
  forall method1 method2 path1 path2, path_ok path1 -> path_ok path2 ->
  forall a amps u (eB e1 e2 : env F), singles_doubles a -> symmetric sz spatial_symmetries spatial eB -> restricted_amplitudes sz amps eB ->
  (forall lams, from_rebcc F lams a (amps lams) = Ok (u lams)) ->
  args_ok sz (p_in p) e1 -> (forall x cs, In (x, cs) (p_in p) -> given_by sz id_split restricted eB x cs (tens F (e1 x))) ->
  args_ok sz (p_in q) e2 -> unrestricted_arguments sz eB u (p_in q) e2 ->
  exists r1 r2, run method1 path1 sz p e1 = Ok r1 /\ run method2 path2 sz q e2 = Ok r2 /\
    forall k x cs, nth_error (p_out q) k = Some (x, cs) -> given_by sz closed_split closed_shell_results (results F (p_out p) r1) x cs (entry F r2 k).
Proof.
  intros H F sz H0 Hs m1 m2 p1 p2 P1 P2 a amps u eB e1 e2 Ha HS HB Hu A1 G1 A2 C.
  apply (@closed_shell_agree _ _ _ H _ _ H0 Hs m1 m2 _ _ P1 P2 _ _ _ HS A1 G1 A2). eapply converted_given; try eassumption. apply in_or_app. left. exact H.
Qed.

(** * Unrestricted and general calculations *)
Definition plain_kinds (p : prog) : bool :=
  forallb (fun r => forallb (fun l => forallb (fun n => if Pos.eqb (fst r) (fst n) then
    match general_kinds (fst r) with Some cs => if list_eq_dec Nat.eq_dec cs (snd r) then true else false | None => false end else true) (plain_names l)) [true; false]) (p_in p).
Lemma all_plain_kinds : forallb (fun r => plain_kinds (snd (snd r))) unrestricted_general = true.
Proof. vm_compute. reflexivity. Qed.
Lemma plain_kinds_ok p lams x cs nm : plain_kinds p = true -> In (x, cs) (p_in p) -> In (x, nm) (plain_names lams) -> general_kinds x = Some cs.
Proof.
  unfold plain_kinds. rewrite forallb_forall. intros H Hx Hn. specialize (H _ Hx). rewrite forallb_forall in H.
  assert (Hl : In lams [true; false]) by (destruct lams; cbn; auto). specialize (H _ Hl). rewrite forallb_forall in H. specialize (H _ Hn).
  cbn [fst snd] in H. rewrite Pos.eqb_refl in H. destruct (general_kinds x) as [cs'|]; [|discriminate]. destruct (list_eq_dec Nat.eq_dec cs' cs) as [->|]; [reflexivity|discriminate].
Qed.
Lemma in_plain_names x : (exists lams nm, In (x, nm) (plain_names lams)) \/ (forall lams nm, ~ In (x, nm) (plain_names lams)).
Proof.
  destruct (in_dec Pos.eq_dec x (map fst (plain_names true))) as [H|H].
  { left. apply in_map_iff in H as ([y nm] & <- & H). exists true, nm. exact H. }
  destruct (in_dec Pos.eq_dec x (map fst (plain_names false))) as [H'|H'].
  { left. apply in_map_iff in H' as ([y nm] & <- & H'). exists false, nm. exact H'. }
  right. intros lams nm Hn. apply (in_map fst) in Hn. destruct lams; contradiction.
Qed.

Lemma spin_positions_ok sz slices size : splits sz spin_split -> spin_slices sz slices size -> positions sz spin_split (spin_positions slices).
Proof.
  intros Hs (Po & Pv & So & Sv & A & B & C & D) c.
  assert (L : forall l n, List.length l = n -> map (fun i => nth i l 0) (seq 0 n) = l).
  { intros l n <-. apply nth_ext with (d := 0) (d' := 0); [rewrite map_length, seq_length; reflexivity|]. intros n Hn. rewrite map_length, seq_length in Hn.
    rewrite (nth_indep _ 0 (nth 0 l 0)) by (rewrite map_length, seq_length; exact Hn). rewrite (map_nth (fun i => nth i l 0)), seq_nth by exact Hn. reflexivity. }
  assert (One : forall c, spin_split c = [c] -> (forall i, spin_positions slices c c i = i) -> Permutation (flat_map (fun b => map (spin_positions slices c b) (seq 0 (sz b))) (spin_split c)) (seq 0 (sz c))).
  { intros c' E H. rewrite E. cbn [flat_map]. rewrite app_nil_r. erewrite map_ext by exact H. rewrite map_id. apply Permutation_refl. }
  destruct c as [|[|c]].
  - cbn [spin_split flat_map]. rewrite app_nil_r. unfold alpha_beta in Po. rewrite So in Po.
    change (Permutation (map (fun i => nth i (slices ch_a (chr_of "o"%string)) 0) (seq 0 (sz 4)) ++ map (fun i => nth i (slices ch_b (chr_of "o"%string)) 0) (seq 0 (sz 6))) (seq 0 (sz 0))).
    rewrite !L by assumption. exact Po.
  - cbn [spin_split flat_map]. rewrite app_nil_r. unfold alpha_beta in Pv. rewrite Sv in Pv.
    change (Permutation (map (fun i => nth i (slices ch_a (chr_of "v"%string)) 0) (seq 0 (sz 5)) ++ map (fun i => nth i (slices ch_b (chr_of "v"%string)) 0) (seq 0 (sz 7))) (seq 0 (sz 1))).
    rewrite !L by assumption. exact Pv.
  - apply One; [reflexivity|]. intros i. reflexivity.
Qed.

Lemma from_uebcc_same name p q : In (name, (p, q)) unrestricted_general ->
  forall (F : fld) sz, characteristic_zero F -> splits sz spin_split ->
  forall slices size, spin_slices sz slices size ->
  forall method1 method2 path1 path2, path_ok path1 -> path_ok path2 ->
  forall a amps g (eB e1 e2 : env F), singles_doubles a -> symmetric sz spin_blocks_symmetries spin_blocks eB -> unrestricted_amplitudes sz amps eB ->
  (forall lams, @from_uebcc F slices size (sz 3) lams a (amps lams) = Ok (g lams)) ->
  args_ok sz (p_in p) e1 -> (forall x cs, In (x, cs) (p_in p) -> given_by sz id_split unrestricted eB x cs (tens F (e1 x))) ->
  args_ok sz (p_in q) e2 -> general_arguments sz slices eB g (p_in q) e2 ->
  exists r1 r2, run method1 path1 sz p e1 = Ok r1 /\ run method2 path2 sz q e2 = Ok r2 /\
    forall k x cs, nth_error (p_out q) k = Some (x, cs) -> given_at sz spin_split (spin_positions slices) spin_orbital_results (results F (p_out p) r1) x cs (entry F r2 k).
Proof.
  intros H F sz H0 Hs slices size Hsl m1 m2 p1 p2 P1 P2 a amps g eB e1 e2 Ha HS HB Hu A1 G1 A2 C.
  apply (@spin_orbital_agree_any _ _ _ H _ _ H0 Hs _ (spin_positions_ok Hs Hsl) m1 m2 _ _ P1 P2 _ _ _ HS A1 G1 A2).
  intros x cs Hx. destruct (C x cs Hx) as (C1 & C2). destruct (in_plain_names x) as [(lams & nm & Hn)|Hn]; [|exact (C2 Hn)].
  pose proof (C1 _ _ Hn) as E. destruct (A2 _ _ Hx) as (v & Ev & _). rewrite Ev in *.
  eapply from_uebcc_given; try eassumption; [reflexivity|symmetry; exact E|].
  pose proof all_plain_kinds as K. rewrite forallb_forall in K. specialize (K _ H). exact (@plain_kinds_ok _ _ _ _ _ K Hx Hn).
Qed.
