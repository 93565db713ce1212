(** Soundness of the relations between several calls. *)
From Coq Require Import List ZArith QArith Lia Ring Field.
From Verif Require Import Base Alg ArrModel EinsumModel TensorModel CgModel CgSpec CgFormSpec CgProofs CgPoly CgPolyProofs CgPolyDom CgCompare CgCompareProofs CgRelSpec CgRel.
From Verif Require Import ArrProofs EinsumProofs.
Import ListNotations.
Set Implicit Arguments.
Local Open Scope nat_scope.

Section Rel.
  Variable F : fld.
  Add Field FfieldRel : (fth F).
  Local Open Scope rng_scope.
  Hypothesis H0 : characteristic_zero F.
  Variable sz : cls -> nat.
  Variable B : list (ref * list cls).
  Variable S : symmetries.
  Hypothesis Hs : syms_ok (kmap B) S = true.
  Hypothesis Hd : pget n_delta (kmap B) = None.

  Section OneBasis.
    Variable eB : env F.
    Hypothesis HS : symmetric sz S B eB.
    Notation psem := (psem F sz (bval sz B eB)).
    Definition denotes (opd : ref -> option (list cls * poly)) (e : env F) : Prop :=
      forall x cs q, opd x = Some (cs, q) -> forall idx, inb (map sz cs) idx -> tens F (e x) idx = psem q idx.
    Lemma atom_denotes : denotes (atom (kmap B)) eB.
    Proof. exact (@atom_ok F H0 sz B eB Hd). Qed.
    Lemma sym_call_ok c opd e method path : sym_call B S c = Some opd -> path_ok path -> called_with sz eB (fst c) (snd c) e ->
      exists r, run method path sz (snd c) e = Ok r /\ denotes opd (results F (p_out (snd c)) r).
    Proof.
      unfold sym_call. destruct (tinputs _ id_split _ _ _) as [ip|] eqn:Eip; [|discriminate].
      destruct (check _ _ (p_body (snd c))) as [Gp|] eqn:Ep; [|discriminate].
      destruct (check_outs _ _ Gp _) eqn:Eo; [|discriminate]. intros E P [A G]. injection E as <-.
      destruct (@poly_run F H0 sz B S eB HS Hs Hd (snd c) (fst c) id_split ip Gp method path e (splits_id sz) P Eip Ep Eo A G) as (r & R & L & V).
      exists r. split; [exact R|]. unfold denotes. apply find_out_ok; [exact L|].
      intros k y ds Hk. destruct (V k y ds Hk) as (d & Ed & Vd). exists d. split; [exact Ed|].
      intros idx Hi. rewrite <- (Vd ds idx); [|rewrite patterns_id; left; reflexivity|exact Hi].
      rewrite places_id; [reflexivity|]. apply inb_length in Hi. rewrite map_length in Hi. exact Hi.
    Qed.
    Lemma together_denotes l es : Forall2 denotes l es -> denotes (together l) (together es).
    Proof.
      intros H. induction H as [|o e l es Ho H IH]; intros x cs q E idx Hi; [destruct x; discriminate|].
      destruct x as [x|x|]; cbn [together] in *; [apply (IH x cs q E idx Hi)|apply (Ho x cs q E idx Hi)|discriminate].
    Qed.
    Lemma compile_value l es out fm ts idx : Forall2 denotes l es -> NoDup out -> compile (together l) out fm = Some ts ->
      inb (map sz (map kind out)) idx -> value sz (together es) out fm idx = psem ts idx.
    Proof. intros H Hn E Hi. apply (@compile_ok F H0 sz (bval sz B eB) (together l) (together es) (together_denotes H) out fm Hn ts idx E Hi). Qed.
    Lemma norm_value n ts idx : length idx = n -> psem (norm (smap S) n ts) idx = psem ts idx.
    Proof. apply norm_ok; [exact H0|exact (@bval_sym F sz B S eB HS Hs)]. Qed.
  End OneBasis.

  (** Powers of a scalar. *)
  Section Eps.
    Variable eB : env F.
    Variable eps : ref.
    Hypothesis He : pget eps (kmap B) = Some [].
    Hypothesis Hne : eps <> n_delta.
    Notation val := (bval sz B eB).
    Notation vale v := (bval sz B (with_number eB eps v)).
    Lemma val_eps v : vale v eps [] = v.
    Proof.
      unfold bval. destruct (Pos.eqb_spec eps n_delta); [contradiction|]. rewrite He. cbn [map inbb]. unfold with_number, bindv. rewrite Pos.eqb_refl. reflexivity.
    Qed.
    Lemma val_other v x idx : x <> eps -> vale v x idx = val x idx.
    Proof. intros N. unfold bval, with_number, bindv. rewrite (proj2 (Pos.eqb_neq x eps) N). reflexivity. Qed.
    Definition strip (fs : list fac) : list fac := filter (fun f => negb (Pos.eqb (fst f) eps)) fs.
    Lemma msem_eps v fs w : eps_scalar eps fs = true -> msem F (vale v) fs w = rpow v (eps_degree eps fs) * msem F val (strip fs) w.
    Proof.
      induction fs as [|[x ls] fs IH]; cbn [eps_scalar forallb]; intros H.
      - cbn. ring.
      - apply andb_prop in H as [H1 H2]. specialize (IH H2). rewrite msem_cons, IH. unfold eps_degree, strip. cbn [filter fst]. cbn [fst snd] in H1.
        destruct (Pos.eqb_spec x eps) as [->|N]; cbn [negb].
        + destruct ls; [|discriminate]. unfold fsem. cbn [fst snd gather map length rpow]. rewrite val_eps. ring.
        + rewrite msem_cons. unfold fsem. cbn [fst snd]. rewrite val_other by exact N. ring.
    Qed.
    Lemma tsem_eps v t idx : eps_scalar eps (tf t) = true ->
      tsem F sz (vale v) t idx = rpow v (eps_degree eps (tf t)) * tsem F sz val (mkT (tq t) (td t) (strip (tf t))) idx.
    Proof.
      intros H. unfold tsem. cbn [tq td tf].
      rewrite (@rsum_map_ext F _ _ (fun d => rpow v (eps_degree eps (tf t)) * msem F val (strip (tf t)) (idx ++ d))).
      - rewrite rsum_map_mul_l. ring.
      - intros d _. apply msem_eps, H.
    Qed.
    Lemma no_linear_ok p idx : no_linear eps p = true -> exists c0 l, forall v, psem F sz (vale v) p idx = c0 + v * v * polynomial F l v.
    Proof.
      induction p as [|t p IH]; cbn [no_linear forallb]; intros H.
      - exists 0, []. intros v. cbn. ring.
      - apply andb_prop in H as [H1 H2]. apply andb_prop in H1 as [H1 H3]. destruct (IH H2) as (c0 & l & E).
        set (s := tsem F sz val (mkT (tq t) (td t) (strip (tf t))) idx).
        destruct (eps_degree eps (tf t)) as [|[|k]] eqn:Ek; [| discriminate |].
        + exists (s + c0), l. intros v. rewrite psem_cons, E, tsem_eps, Ek by exact H1. fold s. cbn [rpow]. ring.
        + exists c0, ((k, s) :: l). intros v. rewrite psem_cons, E, tsem_eps, Ek by exact H1. fold s. unfold polynomial. cbn [map]. rewrite rsum_cons. cbn [rpow fst snd]. ring.
    Qed.
    Lemma times_eps v b idx : psem F sz (vale v) (map (fun t => mkT (Qopp (tq t)) (td t) ((eps, []) :: tf t)) b) idx = - (v * psem F sz (vale v) b idx).
    Proof.
      induction b as [|t b IH]; cbn [map]; [cbn; ring|]. rewrite !psem_cons, IH. unfold tsem at 1. cbn [tq td tf]. rewrite q2F_opp by exact H0.
      rewrite (@rsum_map_ext F _ _ (fun d => v * msem F (vale v) (tf t) (idx ++ d))).
      - rewrite rsum_map_mul_l. unfold tsem. ring.
      - intros d _. rewrite msem_cons. unfold fsem. cbn [fst snd gather map]. rewrite val_eps. reflexivity.
    Qed.
  End Eps.
End Rel.

Lemma first_order (F : fld) (a b v c : F) d : radd a (ropp (rmul v b)) = radd c d -> a = radd (radd c (rmul v b)) d.
Proof.
  intros H. pose proof (F_R (fth F)) as R.
  transitivity (radd (radd a (ropp (rmul v b))) (rmul v b)).
  - rewrite <- (Radd_assoc R), (Radd_comm R (ropp _)), (Ropp_def R), (Radd_comm R), (Radd_0_l R). reflexivity.
  - rewrite H, <- !(Radd_assoc R). f_equal. apply (Radd_comm R).
Qed.

(** Vanishing relations. *)
Theorem vanishes_sound B S calls out fm : vanishes B S calls out fm = true ->
  forall (F : fld) sz, characteristic_zero F -> forall method path, path_ok path ->
  forall eB : env F, symmetric sz S B eB ->
  forall es, Forall2 (fun c e => called_with sz eB (fst c) (snd c) e) calls es ->
  exists rs, Forall2 (fun ce r => run method path sz (snd (fst ce)) (snd ce) = Ok r) (combine calls es) rs /\
    forall idx, inb (map sz (map kind out)) idx ->
      value sz (together (eB :: map (fun cr => results F (p_out (snd (fst cr))) (snd cr)) (combine calls rs))) out fm idx = r0.
Proof.
  intros H F sz H0 m pa P eB HS es Hes. unfold vanishes, relation in H.
  destruct (syms_ok (kmap B) S && _) eqn:Hc; [|discriminate]. apply andb_prop in Hc as [Hs Hd].
  assert (Hdel : pget n_delta (kmap B) = None) by (destruct (pget n_delta (kmap B)); [discriminate|reflexivity]).
  destruct (nodupb out) eqn:Hn; [|discriminate]. apply nodupb_ok in Hn.
  destruct (sym_calls B S calls) as [l|] eqn:El; [|discriminate].
  assert (A : exists rs, Forall2 (fun ce r => run m pa sz (snd (fst ce)) (snd ce) = Ok r) (combine calls es) rs /\
    Forall2 (denotes sz B eB) l (map (fun cr => results F (p_out (snd (fst cr))) (snd cr)) (combine calls rs))).
  { clear H. revert l El. induction Hes as [|c e calls es He Hes IH]; intros l El; cbn [sym_calls] in El.
    - injection El as <-. exists []. split; constructor.
    - destruct (sym_call B S c) as [o|] eqn:Eo; [|discriminate]. destruct (sym_calls B S calls) as [l'|]; [|discriminate]. injection El as <-.
      destruct (IH l' eq_refl) as (rs & R & D). destruct (@sym_call_ok F H0 sz B S Hs Hdel eB HS c o e m pa Eo P He) as (r & R1 & D1).
      exists (r :: rs). split; constructor; assumption. }
  destruct A as (rs & R & D). exists rs. split; [exact R|]. intros idx Hi.
  destruct (compile _ out fm) as [ts|] eqn:Ec; [|discriminate]. destruct (norm (smap S) (length out) ts) as [|? ?] eqn:En; [|discriminate].
  rewrite (@compile_value F H0 sz B eB (atom (kmap B) :: l) (eB :: _) out fm ts idx (Forall2_cons _ _ (@atom_denotes F H0 sz B Hdel eB) D) Hn Ec Hi).
  rewrite <- (@norm_value F H0 sz B S Hs eB HS (length out)); [rewrite En; reflexivity|]. apply inb_length in Hi. rewrite !map_length in Hi. exact Hi.
Qed.

(** Formulas that do not mention a name. *)
Lemma fresh_symmetries_ok eps S : fresh_symmetries eps S = true -> forall x l, In (x, l) S -> x <> eps.
Proof. unfold fresh_symmetries. rewrite forallb_forall. intros H x l Hi ->. specialize (H _ Hi). cbn [fst] in H. rewrite Pos.eqb_refl in H. discriminate H. Qed.
Lemma fresh_lookup eps x pat : forall T, fresh_table eps T = true -> fresh_formula eps (snd (lookup T x pat)) = true.
Proof.
  induction T as [|[y [out fm]] T IH]; cbn [fresh_table forallb lookup]; intros H; [reflexivity|]. apply andb_prop in H as [H1 H2].
  destruct (Pos.eqb x y); [|apply IH, H2]. destruct (list_eq_dec _ _ _); [exact H1|apply IH, H2].
Qed.
Lemma fresh_value (F : fld) sz (eB : env F) eps v out fm idx : fresh_formula eps fm = true -> value sz (with_number eB eps v) out fm idx = value sz eB out fm idx.
Proof.
  intros H. unfold value. apply rsum_map_ext. intros m Hm. unfold fresh_formula in H. rewrite forallb_forall in H. specialize (H m Hm). rewrite forallb_forall in H.
  f_equal. f_equal. apply map_ext_in. intros f Hf. specialize (H f Hf). unfold with_number, bindv. apply Bool.negb_true_iff in H. destruct f as [y ls]. cbn [fst] in *. rewrite H. reflexivity.
Qed.

(** First-order terms: two calls at displaced arguments, and one at the original ones. *)
Theorem slope_sound B S eps T p1 p2 T0 p3 L D : slope_ok B S eps [(T, p1); (T, p2); (T0, p3)] L D = true ->
  fresh_symmetries eps S = true -> fresh_table eps T0 = true ->
  forall (F : fld) sz, characteristic_zero F -> forall method path, path_ok path ->
  forall eB : env F, symmetric sz S B eB ->
  forall e3, called_with sz eB T0 p3 e3 ->
  exists r3, run method path sz p3 e3 = Ok r3 /\ exists c0 l,
    forall v e1 e2, called_with sz (with_number eB eps v) T p1 e1 -> called_with sz (with_number eB eps v) T p2 e2 ->
    exists r1 r2, run method path sz p1 e1 = Ok r1 /\ run method path sz p2 e2 = Ok r2 /\
      let all := together [with_number eB eps v; results F (p_out p1) r1; results F (p_out p2) r2; results F (p_out p3) r3] in
      value sz all [] L [] = radd (radd c0 (rmul v (value sz all [] D []))) (rmul (rmul v v) (polynomial F l v)).
Proof.
  intros H HSe HT F sz H0 m pa P eB HS e3 C3. unfold slope_ok in H.
  destruct (syms_ok (kmap B) S && _ && _ && _) eqn:Hc; [|discriminate].
  apply andb_prop in Hc as [Hc He]. apply andb_prop in Hc as [Hc Hne]. apply andb_prop in Hc as [Hs Hd].
  assert (Hdel : pget n_delta (kmap B) = None) by (destruct (pget n_delta (kmap B)); [discriminate|reflexivity]).
  assert (Hep : pget eps (kmap B) = Some []) by (destruct (pget eps (kmap B)) as [[|? ?]|]; congruence).
  assert (Hn : eps <> n_delta) by (intros ->; rewrite Pos.eqb_refl in Hne; discriminate).
  cbn [sym_calls] in H. destruct (sym_call B S (T, p1)) as [o1|] eqn:E1; [|discriminate]. destruct (sym_call B S (T, p2)) as [o2|] eqn:E2; [|discriminate].
  destruct (sym_call B S (T0, p3)) as [o3|] eqn:E3; [|discriminate].
  destruct (compile _ [] L) as [a|] eqn:EL; [|discriminate]. destruct (compile _ [] D) as [b|] eqn:ED; [|discriminate].
  assert (HSv : forall v, symmetric sz S B (with_number eB eps v)).
  { intros v x cs l axes neg Hx Hl Ha idx Hi. unfold with_number, bindv. destruct (Pos.eqb_spec x eps) as [->|N]; [destruct (@fresh_symmetries_ok _ _ HSe _ _ Hl eq_refl)|].
    apply (HS x cs l axes neg Hx Hl Ha idx Hi). }
  destruct (@sym_call_ok F H0 sz B S Hs Hdel eB HS _ _ _ m pa E3 P C3) as (r3 & R3 & _). exists r3. split; [exact R3|].
  destruct (@no_linear_ok F sz B eB eps Hep Hn _ [] H) as (c0 & l & V). exists c0, l. intros v e1 e2 C1 C2.
  destruct (@sym_call_ok F H0 sz B S Hs Hdel _ (HSv v) (T, p1) _ _ m pa E1 P C1) as (r1 & R1 & D1).
  destruct (@sym_call_ok F H0 sz B S Hs Hdel _ (HSv v) (T, p2) _ _ m pa E2 P C2) as (r2 & R2 & D2).
  destruct (@sym_call_ok F H0 sz B S Hs Hdel _ (HSv v) (T0, p3) _ e3 m pa E3 P) as (r3' & R3' & D3).
  { destruct C3 as [A3 G3]. split; [exact A3|]. intros x cs Hx pat idx Hp Hi. rewrite (G3 x cs Hx pat idx Hp Hi). symmetry. apply fresh_value, fresh_lookup, HT. }
  cbn [snd] in *. rewrite R3 in R3'. injection R3' as <-.
  exists r1, r2. split; [exact R1|]. split; [exact R2|]. cbn zeta.
  assert (DD : Forall2 (denotes sz B (with_number eB eps v)) [atom (kmap B); o1; o2; o3]
     [with_number eB eps v; results F (p_out p1) r1; results F (p_out p2) r2; results F (p_out p3) r3]).
  { repeat constructor; try assumption. apply (@atom_denotes F H0 sz B Hdel). }
  rewrite (@compile_value F H0 sz B _ _ _ [] L a [] DD (NoDup_nil _) EL (Forall2_nil _)).
  rewrite (@compile_value F H0 sz B _ _ _ [] D b [] DD (NoDup_nil _) ED (Forall2_nil _)).
  specialize (V v). rewrite (@norm_value F H0 sz B S Hs _ (HSv v) 0 _ [] eq_refl), psem_app, (@times_eps F H0 sz B eB eps Hep Hn) in V.
  apply (@first_order F _ _ _ _ _ V).
Qed.
