(** Linearity, symmetry and derivatives: from the checks to the products. *)
From Coq Require Import List String ZArith Ring Field Lia.
From Verif Require Import Base Alg ArrModel ArrProofs EinsumModel EinsumProofs CgModel CgSpec CgFormSpec CgProofs CgPoly CgPolyProofs CgPolyDom CgCompare CgCompareProofs CgRename CgBuild.
From Verif Require Import CgNames CgTables CgTables2 CgRelSpec CgRel CgRelProofs CgPart CgDelta CgPairs CgDensSpec CgLagSpec CgAgree CgAgree2 CgDens CgChainSpec CgChain EomModel CgEomSpec CgEomPairs CgEom.
From Verif Require Import Cg_GCCSD Cg_GCCD Cg_GCC2.
Import ListNotations.
Local Open Scope list_scope. Local Open Scope nat_scope.
Set Implicit Arguments.

Lemma results_entry (F : fld) : forall outs (r : list (arr F)) k y cs idx, NoDup (map fst outs) -> nth_error outs k = Some (y, cs) -> tens F (results F outs r y) idx = entry F r k idx.
Proof.
  unfold entry. induction outs as [|[x ds] outs IH]; intros r k y cs idx Hn Hk; [destruct k; discriminate Hk|]. cbn [map fst] in Hn. inversion Hn as [|? ? Hx Hn']; subst.
  destruct k as [|k]; cbn [nth_error] in Hk.
  - injection Hk as -> ->. destruct r as [|a r]; [reflexivity|]. cbn [results nth_error]. unfold bindv. rewrite Pos.eqb_refl. reflexivity.
  - destruct r as [|a r]; [reflexivity|]. cbn [results nth_error]. unfold bindv. destruct (Pos.eqb_spec y x) as [->|_].
    + destruct Hx. apply nth_error_In in Hk. apply (in_map fst) in Hk. exact Hk.
    + apply IH with (cs := cs); assumption.
Qed.
Section One.
  Variable F : fld.
  Variable sz : cls -> nat.
  Add Field FfieldEom : (fth F).
  Local Open Scope rng_scope.
  Lemma coef_one : coef F 1 1 = 1.
  Proof. unfold coef, rZ. change (Pos.to_nat 1) with 1%nat. cbn [rnat]. replace (1 + 0) with (1 : F) by ring. field. apply (F_1_neq_0 (fth F)). Qed.
  Lemma linear_algebra (a b c d : F) : 1 * a + (- (1) * b + (- (1) * (c * d) + 0)) = 0 -> a = b + c * d.
  Proof. intros H. transitivity (1 * a + (- (1) * b + (- (1) * (c * d) + 0)) + (b + c * d)); [ring|rewrite H; ring]. Qed.
  Lemma sign_algebra (a b : F) (neg : bool) : 1 * a + ((if neg then 1 else - (1)) * b + 0) = 0 -> a = rsign neg b.
  Proof. intros H. destruct neg; cbn [rsign]; [transitivity (1 * a + (1 * b + 0) + - b)|transitivity (1 * a + (- (1) * b + 0) + b)]; try ring; rewrite H; ring. Qed.
  Lemma ein_one (f : list nat -> F) ls out idx : summed [ls] out = [] -> ein F (fun l => sz (kind l)) [ls] out [f] idx = f (map (env_of out idx) ls).
  Proof. intros E. unfold ein. rewrite E. cbn [sum_over combine map fst snd]. cbn [rprod fold_right]. ring. Qed.
  Lemma ein_scalar (g f : list nat -> F) ls out idx : summed [ls] out = [] -> ein F (fun l => sz (kind l)) [[]; ls] out [g; f] idx = g [] * f (map (env_of out idx) ls).
  Proof. intros E. unfold ein. replace (summed [[]; ls] out) with (summed [ls] out) by reflexivity. rewrite E. cbn [sum_over combine map fst snd]. cbn [rprod fold_right]. ring. Qed.
  Lemma first_order_minus (c v a b d : F) : c + v * (a + - (1) * b) + d = c + v * (a - b) + d.
  Proof. ring. Qed.
End One.
Lemma outputs_each name s x p : In (name, s, x, p) products -> chain_ok (fst p) (snd p) = true /\ NoDup (map fst (p_out (snd p))) /\
  forall k y cs, nth_error (p_out (snd p)) k = Some (y, cs) -> exists t, In t (vector s x) /\ y = new (fst t) /\ cs = map kind (snd t) /\ summed [snd t] (snd t) = [] /\ NoDup (snd t).
Proof.
  intros H. pose proof all_chain as C. rewrite forallb_forall in C. specialize (C _ H). split; [exact C|].
  pose proof all_outputs as A. rewrite forallb_forall in A. specialize (A _ H). cbv beta iota in A. unfold outputs_ok in A. apply andb_prop in A as [A A2]. apply andb_prop in A as [A A1].
  split; [apply nodup_names_ok, A|]. intros k y cs Hk. apply nth_error_In in Hk. rewrite forallb_forall in A2. specialize (A2 _ Hk). apply existsb_exists in A2 as (t & Ht & E).
  cbn [fst snd] in E. apply andb_prop in E as [E1 E2]. apply Pos.eqb_eq in E1. apply eql_ok in E2. rewrite forallb_forall in A1. specialize (A1 _ Ht). apply andb_prop in A1 as [A3 A4].
  apply eql_ok in A3. apply nodupb_ok in A4. exists t. repeat split; congruence.
Qed.
Lemma vector_not_given : forall s x t, In t (vector s x) -> existsb (fun y => Pos.eqb (fst y) (fst t) || Pos.eqb (fst y) (direction (fst t)) || Pos.eqb (fst y) n_epsilon)%bool (given_symmetries s) = false.
Proof. intros s x t Ht. destruct s, x; cbn in Ht; repeat (destruct Ht as [<-|Ht]; [vm_compute; reflexivity|]); destruct Ht. Qed.
Lemma epsilon_not_given s : existsb (fun y => Pos.eqb (fst y) n_epsilon) (given_symmetries s) = false.
Proof. destruct s; vm_compute; reflexivity. Qed.
Lemma given_enough (F : fld) sz s x (eB : env F) : symmetric sz (given_symmetries s) (given s) eB -> symmetric sz (given_symmetries s) (with_vectors s x) eB.
Proof.
  intros HS y cs l axes neg Hy Hl. unfold with_vectors, with_vector in Hy. rewrite <- app_assoc in Hy. apply in_app_or in Hy as [Hy|Hy]; [exact (HS _ _ _ _ _ Hy Hl)|exfalso].
  assert (A : forall t, In t (vector s x) -> fst t <> y /\ direction (fst t) <> y).
  { intros t Ht. pose proof (@vector_not_given _ _ _ Ht) as N. split; intros E; rewrite <- Bool.not_true_iff_false in N; apply N, existsb_exists; exists (y, l); (split; [exact Hl|]); cbn [fst]; rewrite E, Pos.eqb_refl, ?Bool.orb_true_r; reflexivity. }
  apply in_app_or in Hy as [Hy|[Hy|Hy]].
  - apply in_map_iff in Hy as (t & E & Ht). injection E as E _. apply (proj1 (A _ Ht) E).
  - injection Hy as <- _. pose proof (epsilon_not_given s) as N. rewrite <- Bool.not_true_iff_false in N. apply N, existsb_exists. exists (n_epsilon, l). split; [exact Hl|apply Pos.eqb_refl].
  - apply in_map_iff in Hy as (t & E & Ht). injection E as E _. apply (proj2 (A _ Ht) E).
Qed.
Lemma products_nonempty : forallb (fun t : string * spin_type * sector * (prog * prog) => match p_out (snd (snd t)) with [] => false | _ => true end) products = true.
Proof. vm_compute. reflexivity. Qed.
Lemma vector_nonempty name s x p : In (name, s, x, p) products -> vector s x <> [].
Proof.
  intros H. destruct (@outputs_each _ _ _ _ H) as (C & N & O). intros E. destruct p as [p q]. destruct (p_out q) as [|[y cs] l] eqn:Eq.
  - pose proof products_nonempty as A. rewrite forallb_forall in A. specialize (A _ H). cbn [snd] in A. rewrite Eq in A. discriminate A.
  - destruct (O 0 y cs) as (t & Ht & _); [cbn [snd]; rewrite Eq; reflexivity|]. rewrite E in Ht. exact Ht.
Qed.
Lemma linear_of name s x p : In (name, s, x, p) products -> linear_product s x p.
Proof.
  intros H F sz H0 m pa P eB HS e e1 e2 D D1 D2. destruct (@outputs_each _ _ _ _ H) as (C & N & O).
  apply product_called in D as D'; [|exact C]. apply product_called in D1 as D1'; [|exact C]. apply product_called in D2 as D2'; [|exact C].
  pose proof (@vector_nonempty _ _ _ _ H) as V0.
  pose proof all_linear as A. rewrite forallb_forall in A. specialize (A _ H). cbv beta iota delta [check_linear] in A.
  destruct (@calls_sound _ _ _ _ A F sz H0 m pa P eB (@given_enough _ _ _ x _ HS) [e; e1; e2]) as (rs & R & V).
  { constructor; [exact D'|]. constructor; [exact D1'|]. constructor; [exact D2'|constructor]. }
  { destruct (vector s x); [contradiction|discriminate]. }
  cbn [combine] in R. inversion R as [|? r ? rs0 R0 Ra Ea Eb]; subst. inversion Ra as [|? r1 ? rs1 R1 Rb Ec Ed]; subst. inversion Rb as [|? r2 ? rs2 R2 Rc Ee Ef]; subst. inversion Rc; subst.
  cbn [fst snd] in R0, R1, R2. exists r, r1, r2. split; [apply chain_product; assumption|]. split; [apply chain_product; assumption|]. split; [apply chain_product; assumption|].
  intros k y cs Hk idx Hi. destruct (O _ _ _ Hk) as ([t ls] & Ht & -> & -> & Es & Nl). cbn [fst snd] in *.
  specialize (V (linear_formula (t, ls))). cbn [linear_formula fst snd] in V. rewrite !map_map in *. specialize (V (in_map linear_formula _ _ Ht) idx Hi). unfold value in V. cbn [map fst snd mono combine] in V.
  rewrite !ein_one in V by exact Es. rewrite ein_scalar in V by exact Es. rewrite env_of_map in V; [|exact Nl|apply inb_length in Hi; rewrite Hi, map_length; reflexivity].
  cbn [rsum fold_right] in V.
  change (together _ (nm 1 (new t))) with (results F (p_out (one p)) r (new t)) in V. change (together _ (nm 2 (new t))) with (results F (p_out (one p)) r1 (new t)) in V.
  change (together _ (nm 3 (new t))) with (results F (p_out (one p)) r2 (new t)) in V. change (together _ (nm 0 n_epsilon)) with (eB n_epsilon) in V.
  change (p_out (one p)) with (p_out (snd p)) in V. rewrite !(@results_entry F _ _ _ _ _ idx N Hk) in V. rewrite coef_one, (@coef_m1 F) in V.
  exact (linear_algebra F _ _ _ _ V).
Qed.

Lemma linear_runs name s x p : In (name, s, x, p) products -> forall (F : fld) sz, characteristic_zero F -> forall m pa, path_ok pa -> forall (eB : env F) e,
  symmetric sz (given_symmetries s) (given s) eB -> product_called_with F sz id_blocks eB (first_vector s x) p e -> exists r, run m pa sz (one p) e = Ok r.
Proof.
  intros H F sz H0 m pa P eB e HS D. pose proof (proj1 (@outputs_each _ _ _ _ H)) as C. apply product_called in D as D'; [|exact C].
  pose proof all_linear as B. rewrite forallb_forall in B. specialize (B _ H). cbv beta iota delta [check_linear] in B.
  destruct (@product_arguments_exist id_blocks (combination s x) p C F sz eB (splits_id sz)) as (e1 & D1). destruct (@product_arguments_exist id_blocks (second_vector s x) p C F sz eB (splits_id sz)) as (e2 & D2).
  apply product_called in D1; [|exact C]. apply product_called in D2; [|exact C].
  destruct (@calls_sound _ _ _ _ B F sz H0 m pa P eB (@given_enough _ _ _ x _ HS) [e1; e; e2]) as (rs & R & V).
  { constructor; [exact D1|]. constructor; [exact D'|]. constructor; [exact D2|constructor]. }
  { pose proof (@vector_nonempty _ _ _ _ H). destruct (vector s x); [contradiction|discriminate]. }
  inversion R as [|? r ? rs0 R0 Ra Ea Eb]; subst. inversion Ra as [|? r1 ? rs1 R1 Rb Ec Ed]; subst. exists r1. exact R1.
Qed.
Lemma symmetric_given (F : fld) sz s x (eB : env F) : symmetric sz (with_vector_symmetries s x) (with_vector s x) eB -> symmetric sz (given_symmetries s) (given s) eB.
Proof. intros HS y cs l axes neg Hy Hl. apply (HS y cs l axes neg); unfold with_vector, with_vector_symmetries; apply in_or_app; left; assumption. Qed.
Lemma gather (axes ls idx : list nat) : NoDup ls -> length idx = length ls -> (forall k, In k axes -> k < length ls) ->
  map (env_of ls idx) (map (fun k => nth k ls 0) axes) = map (fun k => nth k idx 0) axes.
Proof.
  intros Hn Hl Ha. rewrite map_map. apply map_ext_in. intros k Hk. specialize (Ha _ Hk). transitivity (nth k (map (env_of ls idx) ls) (env_of ls idx 0)); [symmetry; apply map_nth|].
  rewrite (@env_of_map _ _ Hn Hl). apply nth_indep. lia.
Qed.
Lemma symmetric_of name s x p : In (name, s, x, p) products -> product_symmetric s x p.
Proof.
  intros H F sz H0 m pa P eB HS e D. destruct (@outputs_each _ _ _ _ H) as (C & N & O).
  apply product_called in D as D'; [|exact C].
  assert (X : forall l, all_vanish (with_vector s x) (with_vector_symmetries s x) [(first_vector s x, one p)] l = true -> l <> [] ->
    exists r, run m pa sz (one p) e = Ok r /\ forall f, In f l -> forall idx, inb (map sz (map kind (fst f))) idx -> value sz (together [eB; results F (p_out (snd p)) r]) (fst f) (snd f) idx = r0).
  { intros l A Hl. destruct (@calls_sound _ _ _ _ A F sz H0 m pa P eB HS [e]) as (rs & R & V); [constructor; [exact D'|constructor]|exact Hl|].
    cbn [combine] in R. inversion R as [|? r ? rs0 R0 Ra Ea Eb]; subst. inversion Ra; subst. exists r. split; [exact R0|exact V]. }
  assert (Y : exists r, run m pa sz (one p) e = Ok r /\ forall f, In f (symmetry_formulas s x) -> forall idx, inb (map sz (map kind (fst f))) idx -> value sz (together [eB; results F (p_out (snd p)) r]) (fst f) (snd f) idx = r0).
  { pose proof all_symmetric as A. rewrite forallb_forall in A. specialize (A _ H). cbv beta iota delta [check_symmetric] in A.
    destruct (symmetry_formulas s x) as [|f l]; [|apply X; [exact A|discriminate]].
    pose proof all_linear as B. rewrite forallb_forall in B. specialize (B _ H). cbv beta iota delta [check_linear] in B.
    destruct (@linear_runs _ _ _ _ H F sz H0 m pa P eB e (@symmetric_given _ _ s x _ HS) D) as (r & R). exists r. split; [exact R|intros f []]. }
  destruct Y as (r & R & V). exists r. split; [apply chain_product; assumption|].
  pose proof all_labels as L. rewrite forallb_forall in L. specialize (L _ H). cbv beta iota in L. unfold symmetry_labels in L. apply andb_prop in L as [L L']. rewrite forallb_forall in L, L'.
  intros y cs l axes neg Hy Hl Ha idx Hi. apply in_map_iff in Hl as ([t l'] & E & Hl). cbn [fst snd] in E. injection E as <- ->.
  apply In_nth_error in Hy as (k & Hk). destruct (O _ _ _ Hk) as ([t' ls] & Ht & Et & -> & Es & Nl). cbn [fst snd] in *.
  specialize (L' _ Hl). rewrite forallb_forall in L'. specialize (L' _ Ht). cbn [fst] in L'. apply Bool.orb_prop in L' as [L'|L']; [rewrite Et, Pos.eqb_refl in L'; discriminate L'|]. apply Pos.eqb_eq in L'. subst t'. clear Et.
  specialize (L _ Hl). cbn [fst snd] in L. match type of L with match ?f with _ => _ end = _ => destruct f as [[t2 ls2]|] eqn:Ef end; [|discriminate L]. cbn [snd] in L.
  assert (ls2 = ls). { pose proof (find_some _ _ Ef) as [I2 E2]. cbn [fst] in E2. apply Pos.eqb_eq in E2. subst t2. clear -I2 Ht.
    destruct s, x; cbn in I2, Ht; repeat (destruct I2 as [I2|I2]; [injection I2 as <- <-; repeat (destruct Ht as [Ht|Ht]; [first [injection Ht as <-; reflexivity|discriminate Ht]|]); destruct Ht|]); destruct I2. }
  subst ls2. rewrite forallb_forall in L. specialize (L _ Ha). cbn [fst] in L. apply andb_prop in L as [L1 L2]. apply eql_ok in L1. rewrite forallb_forall in L2.
  assert (In (symmetry_formula ls t (axes, neg)) (symmetry_formulas s x)) as I.
  { unfold symmetry_formulas. apply in_flat_map. exists (t, l). split; [exact Hl|]. cbn [fst snd]. rewrite Ef. cbn [snd]. apply in_map, Ha. }
  specialize (V _ I idx Hi). unfold symmetry_formula, value in V. cbn [fst snd map mono combine] in V.
  assert (Hlen : length idx = length ls) by (apply inb_length in Hi; rewrite Hi, !map_length; reflexivity).
  rewrite (@ein_one F sz _ _ ls idx L1), (@ein_one F sz _ ls ls idx Es) in V. rewrite (@env_of_map _ _ Nl Hlen) in V.
  rewrite (@gather axes ls idx Nl Hlen) in V by (intros i Hi'; specialize (L2 _ Hi'); apply Nat.ltb_lt in L2; exact L2). cbn [rsum fold_right] in V.
  change (together _ (nm 1 (new t))) with (results F (p_out (snd p)) r (new t)) in V. rewrite coef_one in V.
  replace (coef F (if neg then 1 else -1) 1) with (if neg then r1 else ropp r1 : F) in V by (destruct neg; [rewrite coef_one|rewrite (@coef_m1 F)]; reflexivity).
  exact (sign_algebra F _ _ _ V).
Qed.

(** ** Derivatives *)
Theorem derivative_sound B S eps T p1 T0 p2 T3 p3 L D : slope_ok B S eps [(T, p1); (T0, p2); (T3, p3)] L D = true ->
  fresh_symmetries eps S = true -> fresh_table eps T0 = true -> fresh_table eps T3 = true ->
  forall (F : fld) sz, characteristic_zero F -> forall method path, path_ok path ->
  forall eB : env F, symmetric sz S B eB ->
  forall e2 e3, called_with sz eB T0 p2 e2 -> called_with sz eB T3 p3 e3 ->
  exists r2 r3, run method path sz p2 e2 = Ok r2 /\ run method path sz p3 e3 = Ok r3 /\ exists c0 l,
    forall v e1, called_with sz (with_number eB eps v) T p1 e1 ->
    exists r1, run method path sz p1 e1 = Ok r1 /\
      let all := together [with_number eB eps v; results F (p_out p1) r1; results F (p_out p2) r2; results F (p_out p3) r3] in
      value sz all [] L [] = radd (radd c0 (rmul v (value sz all [] D []))) (rmul (rmul v v) (polynomial F l v)).
Proof.
  intros H HSe HT HT3 F sz H0 m pa P eB HS e2 e3 C2 C3. unfold slope_ok in H.
  destruct (syms_ok (kmap B) S && _ && _ && _) eqn:Hc; [|discriminate].
  apply andb_prop in Hc as [Hc He]. apply andb_prop in Hc as [Hc Hne]. apply andb_prop in Hc as [Hs Hd].
  assert (Hdel : pget n_delta (kmap B) = None) by (destruct (pget n_delta (kmap B)); [discriminate|reflexivity]).
  assert (Hep : pget eps (kmap B) = Some []) by (destruct (pget eps (kmap B)) as [[|? ?]|]; congruence).
  assert (Hn : eps <> n_delta) by (intros ->; rewrite Pos.eqb_refl in Hne; discriminate).
  cbn [sym_calls] in H. destruct (sym_call B S (T, p1)) as [o1|] eqn:E1; [|discriminate]. destruct (sym_call B S (T0, p2)) as [o2|] eqn:E2; [|discriminate].
  destruct (sym_call B S (T3, p3)) as [o3|] eqn:E3; [|discriminate].
  destruct (compile _ [] L) as [a|] eqn:EL; [|discriminate]. destruct (compile _ [] D) as [b|] eqn:ED; [|discriminate].
  assert (HSv : forall v, symmetric sz S B (with_number eB eps v)).
  { intros v x cs l axes neg Hx Hl Ha idx Hi. unfold with_number, bindv. destruct (Pos.eqb_spec x eps) as [->|N]; [destruct (@fresh_symmetries_ok _ _ HSe _ _ Hl eq_refl)|].
    apply (HS x cs l axes neg Hx Hl Ha idx Hi). }
  destruct (@sym_call_ok F H0 sz B S Hs Hdel eB HS _ _ _ m pa E2 P C2) as (r2 & R2 & _). destruct (@sym_call_ok F H0 sz B S Hs Hdel eB HS _ _ _ m pa E3 P C3) as (r3 & R3 & _).
  exists r2, r3. split; [exact R2|]. split; [exact R3|].
  destruct (@no_linear_ok F sz B eB eps Hep Hn _ [] H) as (c0 & l & V). exists c0, l. intros v e1 C1.
  destruct (@sym_call_ok F H0 sz B S Hs Hdel _ (HSv v) (T, p1) _ _ m pa E1 P C1) as (r1 & R1 & D1).
  destruct (@sym_call_ok F H0 sz B S Hs Hdel _ (HSv v) (T0, p2) _ e2 m pa E2 P) as (r2' & R2' & D2).
  { destruct C2 as [A2 G2]. split; [exact A2|]. intros x cs Hx pat idx Hp Hi. rewrite (G2 x cs Hx pat idx Hp Hi). symmetry. apply fresh_value, fresh_lookup, HT. }
  destruct (@sym_call_ok F H0 sz B S Hs Hdel _ (HSv v) (T3, p3) _ e3 m pa E3 P) as (r3' & R3' & D3).
  { destruct C3 as [A3 G3]. split; [exact A3|]. intros x cs Hx pat idx Hp Hi. rewrite (G3 x cs Hx pat idx Hp Hi). symmetry. apply fresh_value, fresh_lookup, HT3. }
  cbn [snd] in *. rewrite R2 in R2'. injection R2' as <-. rewrite R3 in R3'. injection R3' as <-.
  exists r1. split; [exact R1|]. cbn zeta.
  assert (DD : Forall2 (denotes sz B (with_number eB eps v)) [atom (kmap B); o1; o2; o3]
     [with_number eB eps v; results F (p_out p1) r1; results F (p_out p2) r2; results F (p_out p3) r3]).
  { repeat constructor; try assumption. apply (@atom_denotes F H0 sz B Hdel). }
  rewrite (@compile_value F H0 sz B _ _ _ [] L a [] DD (NoDup_nil _) EL (Forall2_nil _)).
  rewrite (@compile_value F H0 sz B _ _ _ [] D b [] DD (NoDup_nil _) ED (Forall2_nil _)).
  specialize (V v). rewrite (@norm_value F H0 sz B S Hs _ (HSv v) 0 _ [] eq_refl), psem_app, (@times_eps F H0 sz B eB eps Hep Hn) in V.
  apply (@first_order F _ _ _ _ _ V).
Qed.
Definition neutral : list (string * bool * prog * (prog * prog)) :=
  [("GCCSD"%string, true, GCCSD_update_amps, (GCCSD_hbar_matvec_ee_intermediates, GCCSD_hbar_matvec_ee)); ("GCCD"%string, false, GCCD_update_amps, (GCCD_hbar_matvec_ee_intermediates, GCCD_hbar_matvec_ee))].
Definition check_derivative (t : string * bool * prog * (prog * prog)) : bool :=
  match t with (_, s, p, q) => slope_ok directed_basis directed_symmetries n_epsilon [(displaced, p); (general, p); (direction_as_vector s, one q)] (residuals_with_l s) (product_with_l s ++ scaled (-1) (disconnected_with_l s))
    && fresh_symmetries n_epsilon directed_symmetries && fresh_table n_epsilon general && fresh_table n_epsilon (direction_as_vector s) && chain_ok (fst q) (snd q) end.
Lemma all_derivatives : forallb check_derivative neutral = true.
Proof. vm_compute. reflexivity. Qed.
Lemma derivative_of name s p q : In (name, s, p, q) neutral -> product_is_derivative s p q.
Proof.
  intros H F sz H0 m pa P eB HS e2 e3 C2 C3. pose proof all_derivatives as A. rewrite forallb_forall in A. specialize (A _ H). cbv beta iota delta [check_derivative] in A.
  apply andb_prop in A as [A C]. apply andb_prop in A as [A A4]. apply andb_prop in A as [A A3]. apply andb_prop in A as [A A2].
  apply product_called in C3; [|exact C].
  destruct (@derivative_sound _ _ _ _ _ _ _ _ _ _ _ A A2 A3 A4 F sz H0 m pa P eB HS e2 e3 C2 C3) as (r2 & r3 & R2 & R3 & c0 & l & V).
  exists r2, r3. split; [exact R2|]. split; [apply chain_product; assumption|]. exists c0, l. intros v e1 C1. destruct (V v e1 C1) as (r1 & R1 & E). exists r1. split; [exact R1|].
  cbv zeta in *. change (p_out (one q)) with (p_out (snd q)) in E. rewrite E, value_app, value_scaled, (@coef_m1 F). apply (first_order_minus F). all: exact H0.
Qed.

(** ** Counterexamples *)
Definition cc2_right (x : sector) : prog * prog := match x with IP => (GCC2_hbar_matvec_ip_intermediates, GCC2_hbar_matvec_ip) | EA => (GCC2_hbar_matvec_ea_intermediates, GCC2_hbar_matvec_ea) | EE => (GCC2_hbar_matvec_ee_intermediates, GCC2_hbar_matvec_ee) end.
Definition cc2_left (x : sector) : prog * prog := match x with IP => (GCC2_hbar_lmatvec_ip_intermediates, GCC2_hbar_lmatvec_ip) | EA => (GCC2_hbar_lmatvec_ea_intermediates, GCC2_hbar_lmatvec_ea) | EE => (GCC2_hbar_lmatvec_ee_intermediates, GCC2_hbar_lmatvec_ee) end.
Definition product_computed (x : sector) (p : prog * prog) (T Tout : table) : bool :=
  computes (with_vector General x) (with_vector_symmetries General x) id_split T (one p) Tout && chain_ok (fst p) (snd p).
Lemma product_computed_ok x p T Tout : product_computed x p T Tout = true -> forall (F : fld) sz, characteristic_zero F ->
  forall eB : env F, symmetric sz (with_vector_symmetries General x) (with_vector General x) eB -> product_returns F sz eB p T Tout.
Proof.
  intros H F sz H0 eB HS m pa P e D. apply andb_prop in H as [H C]. apply product_called in D as [A G]; [|exact C].
  destruct (@computes_sound _ _ _ _ _ _ H F sz H0 (splits_id sz) m pa P eB e HS A G) as (r & R & V). exists r. split; [apply chain_product; assumption|exact V].
Qed.
Lemma cc2_products : forallb (fun x => product_computed x (cc2_right x) (singles_only x) all_zero && product_computed x (cc2_left x) (doubles_only x) (left_of_doubles x)) [IP; EA; EE] = true.
Proof. vm_compute. reflexivity. Qed.
Lemma cc2_not_adjoint : forall x (F : fld) sz, characteristic_zero F -> forall eB : env F, symmetric sz (with_vector_symmetries General x) (with_vector General x) eB ->
  product_returns F sz eB (cc2_right x) (singles_only x) all_zero /\ product_returns F sz eB (cc2_left x) (doubles_only x) (left_of_doubles x).
Proof.
  intros x F sz H0 eB HS. pose proof cc2_products as A. rewrite forallb_forall in A. specialize (A x ltac:(destruct x; cbn; tauto)). cbv beta in A. apply andb_prop in A as [A1 A2].
  split; eapply product_computed_ok; eassumption.
Qed.
Lemma cc2_derivative : product_computed EE (cc2_right EE) (only [n_v'oooo; n_r2] (first_vector General EE)) half_oooo_r2 && computes (with_vector General EE) (with_vector_symmetries General EE) id_split (only [n_v'oooo; n_t2] general) GCC2_update_amps all_zero = true.
Proof. vm_compute. reflexivity. Qed.
Lemma cc2_not_derivative : forall (F : fld) sz, characteristic_zero F -> forall eB : env F, symmetric sz (with_vector_symmetries General EE) (with_vector General EE) eB ->
  returns F sz eB GCC2_update_amps (only [n_v'oooo; n_t2] general) all_zero /\ product_returns F sz eB (cc2_right EE) (only [n_v'oooo; n_r2] (first_vector General EE)) half_oooo_r2.
Proof.
  intros F sz H0 eB HS. pose proof cc2_derivative as A. apply andb_prop in A as [A1 A2]. split; [|eapply product_computed_ok; eassumption].
  intros m pa P e [A G]. apply (@computes_sound _ _ id_split _ _ _ A2 F sz H0 (splits_id sz) m pa P eB e HS A G).
Qed.
(** ** Arguments *)
Lemma products_arguments name s x p : In (name, s, x, p) products -> forall split T (F : fld) sz (eB : env F), splits sz split -> exists e, product_called_with F sz split eB T p e.
Proof. intros H split T F sz eB Hs. exact (@product_arguments_exist split T p (proj1 (@outputs_each _ _ _ _ H)) F sz eB Hs). Qed.
Definition all_pairs : list (prog * prog) := flat_map (fun t : string * sector * (prog * prog) * (prog * prog) => [snd (fst t); snd t]) (restricted_unrestricted_products ++ unrestricted_general_products)
  ++ flat_map (fun t : string * spin_type * sector * (prog * prog) * (prog * prog) => [snd (fst t); snd t]) (fitted_products ++ right_left).
Lemma pairs_arguments p : In p all_pairs -> forall split T (F : fld) sz (eB : env F), splits sz split -> exists e, product_called_with F sz split eB T p e.
Proof.
  intros H split T F sz eB Hs. apply product_arguments_exist; [|exact Hs]. unfold all_pairs in H. apply in_app_or in H as [H|H]; apply in_flat_map in H as (t & Ht & H).
  - pose proof ru_chain as C. rewrite forallb_forall in C. specialize (C _ Ht). destruct t as [[[n x] a] b]. cbv beta iota in C. apply andb_prop in C as [C1 C2]. destruct H as [<-|[<-|[]]]; assumption.
  - pose proof fitted_chain as C. rewrite forallb_forall in C. specialize (C _ Ht). destruct t as [[[[n s] x] a] b]. cbv beta iota in C. apply andb_prop in C as [C1 C2]. destruct H as [<-|[<-|[]]]; assumption.
Qed.
Lemma neutral_arguments name s p q : In (name, s, p, q) neutral -> forall T (F : fld) sz (eB : env F), (exists e, called_with sz eB T p e) /\ exists e, product_called_with F sz id_blocks eB T q e.
Proof.
  intros H T F sz eB. split.
  - assert (N : nodup_names (map fst (p_in p)) = true) by (cbn in H; repeat (destruct H as [H|H]; [injection H as <- <- <- <-; vm_compute; reflexivity|]); destruct H).
    apply nodup_names_ok in N. exists (build sz id_blocks T eB (p_in p)). split; [apply build_args, N|apply build_given; [apply splits_id|exact N]].
  - pose proof all_derivatives as A. rewrite forallb_forall in A. specialize (A _ H). cbv beta iota delta [check_derivative] in A. apply andb_prop in A as [_ C]. apply product_arguments_exist; [exact C|apply splits_id].
Qed.
