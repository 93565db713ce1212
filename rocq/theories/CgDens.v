(** Relations between results, checked by running every function once. *)
From Coq Require Import List ZArith Ring Field String Lia.
From Verif Require Import Base Alg ArrModel ArrProofs EinsumModel CgModel CgSpec CgFormSpec CgProofs CgPoly CgPolyProofs CgPolyDom CgCompare CgCompareProofs CgRename CgBuild.
From Verif Require Import CgNames CgTables CgTables2 CgRelSpec CgRel CgRelProofs CgOwn CgPart CgDelta CgPairs CgDensTables CgDensSpec CgAgree CgAgree2.
Import ListNotations.
Local Open Scope nat_scope.

(** ** Formulas *)
Definition scaled (c : Z) (fm : formula) : formula :=
  if Z.eqb c 0 then [] else map (fun m : monomial => (((c * fst (fst m))%Z, snd (fst m)), snd m)) fm.
Definition all_vanish (B : list (ref * list cls)) (S : symmetries) (cs : list (table * prog)) (l : list (list nat * formula)) : bool :=
  if syms_ok (kmap B) S && (match pget n_delta (kmap B) with None => true | _ => false end) then
    match sym_calls B S cs with
    | Some k => forallb (fun r => nodupb (fst r) &&
        match compile (together (atom (kmap B) :: k)) (fst r) (snd r) with
        | Some ts => match norm (smap S) (length (fst r)) (undelta (map kind (fst r)) ts) with [] => true | _ => false end
        | None => false
        end) l
    | None => false
    end
  else false.
Lemma all_vanish_each B S cs l r : all_vanish B S cs l = true -> In r l -> vanishes_delta B S cs (fst r) (snd r) = true.
Proof.
  unfold all_vanish, vanishes_delta, relation_delta. destruct (syms_ok (kmap B) S && _); [|discriminate].
  destruct (sym_calls B S cs) as [k|]; [|discriminate]. intros H Hr. rewrite forallb_forall in H. specialize (H _ Hr). cbv beta in H.
  apply andb_prop in H as [-> H]. destruct (compile _ (fst r) (snd r)); [|discriminate]. destruct (norm _ _ _); [reflexivity|discriminate].
Qed.

Section Values.
  Variable F : fld.
  Hypothesis H0 : characteristic_zero F.
  Local Open Scope rng_scope.
  Add Field FfieldDens : (fth F).
  Variable sz : cls -> nat.
  Lemma rZ_pos d : @rZ F (Zpos d) <> 0.
  Proof. unfold rZ. destruct (Pos.to_nat d) as [|n] eqn:E; [pose proof (Pos2Nat.is_pos d); lia|]. apply H0. Qed.
  Lemma coef_mul c n d : coef F (c * n) d = coef F c 1 * coef F n d.
  Proof.
    unfold coef. rewrite (@rZ_mul F). pose proof (rZ_pos d) as Hd. pose proof (rZ_pos 1) as H1. replace (@rZ F (Zpos 1)) with (1 : F) in * by (unfold rZ; change (Pos.to_nat 1) with 1%nat; cbn [rnat]; ring).
    field. split; assumption.
  Qed.
  Lemma value_app e out a b idx : value (F := F) sz e out (a ++ b) idx = value sz e out a idx + value sz e out b idx.
  Proof. unfold value. rewrite map_app. apply rsum_app. Qed.
  Lemma value_map_coef e out c (k : list (ref * list nat) -> list (ref * list nat)) idx (a : formula) (v : F) :
    (forall m, In m a -> ein F (fun l => sz (kind l)) (map snd (k (snd m))) out (map (fun f => tens F (e (fst f))) (k (snd m))) idx =
                         v * ein F (fun l => sz (kind l)) (map snd (snd m)) out (map (fun f => tens F (e (fst f))) (snd m)) idx) ->
    value (F := F) sz e out (map (fun m : monomial => (((c * fst (fst m))%Z, snd (fst m)), k (snd m))) a) idx = coef F c 1 * v * value sz e out a idx.
  Proof.
    intros H. unfold value. induction a as [|m a IH]; cbn [map].
    - cbn. ring.
    - cbn [rsum fold_right]. change (fold_right radd 0 ?l) with (rsum l). rewrite IH by (intros m' Hm; apply H; right; exact Hm). cbn [fst snd].
      rewrite H by (left; reflexivity). rewrite coef_mul. ring.
  Qed.
  Lemma value_scaled e out c a idx : value (F := F) sz e out (scaled c a) idx = coef F c 1 * value sz e out a idx.
  Proof.
    unfold scaled. destruct (Z.eqb_spec c 0) as [->|_].
    - transitivity (0 * value sz e out a idx); [unfold value; cbn; ring|]. f_equal. unfold coef. pose proof (rZ_pos 1) as H1.
      change (@rZ F 0) with (0 : F). field. exact H1.
    - rewrite (@value_map_coef e out c (fun fs => fs) idx a 1) by (intros; ring). ring.
  Qed.
  Lemma value_minus e out a b idx : value (F := F) sz e out (a ++ scaled (-1) b) idx = 0 -> value sz e out a idx = value sz e out b idx.
  Proof.
    rewrite value_app, value_scaled, (@coef_m1 F). intros H. transitivity (value sz e out a idx + - (1) * value sz e out b idx + value sz e out b idx); [ring|rewrite H; ring].
  Qed.
End Values.

(** ** Energies *)
Definition is_residual (y : ref) : bool := match y with xI (xI (xI (xI (xO _)))) => true | _ => false end.
Definition only_residuals (fm : formula) : bool := forallb (fun m : monomial => existsb (fun f => is_residual (fst f)) (snd m)) fm.
Definition energy_check (B : list (ref * list cls)) (S : symmetries) (T : table) (ps : list prog) (trace_H energy residual : formula) : bool :=
  only_residuals residual && all_vanish B S (map (fun p => (T, p)) ps) [([], trace_H ++ scaled (-1) (energy ++ residual))].

Section Zero.
  Variable F : fld.
  Local Open Scope rng_scope.
  Add Ring RringDens2 : (rth F).
  Lemma rsum_zeros {A} (f : A -> F) l : (forall x, f x = 0) -> rsum (map f l) = 0.
  Proof. intros H. induction l as [|x l IH]; cbn [map]; [reflexivity|]. change (f x + rsum (map f l) = 0). rewrite H, IH. ring. Qed.
  Lemma sum_over_zero szl L (f : (nat -> nat) -> F) : (forall e, f e = 0) -> forall e, sum_over F szl L f e = 0.
  Proof. intros H. induction L as [|c L IH]; intros e; cbn [sum_over]; [apply H|]. apply rsum_zeros. intros v. apply IH. Qed.
  Lemma value_residual sz (e : env F) out fm idx : only_residuals fm = true -> (forall x i, tens F (e (nm 4 x)) i = 0) -> value sz e out fm idx = 0.
  Proof.
    intros H Z. unfold value. induction fm as [|m fm IH]; [reflexivity|]. cbn [only_residuals forallb] in H. apply andb_prop in H as [Hm H].
    cbn [map]. change (coef F (fst (fst m)) (snd (fst m)) * ein F (fun l => sz (kind l)) (map snd (snd m)) out (map (fun f => tens F (e (fst f))) (snd m)) idx +
      rsum (map (fun m => coef F (fst (fst m)) (snd (fst m)) * ein F (fun l => sz (kind l)) (map snd (snd m)) out (map (fun f => tens F (e (fst f))) (snd m)) idx) fm) = 0).
    rewrite (IH H). unfold ein. rewrite sum_over_zero; [ring|]. intros e'. clear IH H fm. induction (snd m) as [|[y ls] fs IH]; [discriminate|].
    cbn [existsb map fst snd combine] in *. cbn [rprod fold_right]. change (fold_right rmul 1 ?l) with (rprod l).
    destruct (is_residual y) eqn:E; [|rewrite (IH Hm); ring].
    destruct y as [[[[[?|x|]|?|]|?|]|?|]|?|]; try discriminate. rewrite (Z x). ring.
  Qed.
End Zero.

Lemma returns_unique {A C} (g : A -> result C) (l : list A) : forall rs rs', Forall2 (fun a r => g a = Ok r) l rs -> Forall2 (fun a r => g a = Ok r) l rs' -> rs = rs'.
Proof.
  induction l as [|a l IH]; intros rs rs' H H'; inversion H as [|? r ? t Hr Ht]; inversion H' as [|? r' ? t' Hr' Ht']; subst; [reflexivity|].
  rewrite Hr in Hr'. injection Hr' as ->. f_equal. apply IH; assumption.
Qed.
Lemma shared_return (F : fld) method path sz T ps : forall (es : list (env F)) rs,
  Forall2 (fun ce r => run method path sz (snd (fst ce)) (snd ce) = Ok r) (combine (map (fun p : prog => (T : table, p)) ps) es) rs <-> all_return method path sz ps es rs.
Proof.
  unfold all_return. induction ps as [|p ps IH]; intros [|e es] rs; cbn [map combine]; try solve [split; intros H; inversion H; constructor].
  split; intros H; inversion H as [|? r ? t Hr Ht]; subst; constructor; try exact Hr; apply IH, Ht.
Qed.
Lemma shared_results (F : fld) (eB : env F) T ps : forall rs,
  together (eB :: map (fun cr => results F (p_out (snd (fst cr))) (snd cr)) (combine (map (fun p : prog => (T : table, p)) ps) rs)) = given_and_results eB ps rs.
Proof.
  intros rs. unfold given_and_results. f_equal. f_equal. revert rs. induction ps as [|p ps IH]; intros [|r rs]; cbn [map combine]; try reflexivity.
  cbn [fst snd]. f_equal. apply IH.
Qed.
Lemma shared_sound B S T ps l : all_vanish B S (map (fun p => (T, p)) ps) l = true -> l <> [] ->
  forall (F : fld) sz, characteristic_zero F -> forall method path, path_ok path ->
  forall eB : env F, symmetric sz S B eB -> forall es, all_called sz eB T ps es ->
  exists rs, all_return method path sz ps es rs /\
    forall r, In r l -> forall idx, inb (map sz (map kind (fst r))) idx -> value sz (given_and_results eB ps rs) (fst r) (snd r) idx = r0.
Proof.
  intros H Hl F sz H0 m pa P eB HS es Hes.
  assert (Hes' : Forall2 (fun c e => called_with sz eB (fst c) (snd c) e) (map (fun p => (T, p)) ps) es).
  { clear H. induction Hes; cbn [map]; constructor; assumption. }
  assert (A : forall r, In r l -> exists rs, all_return m pa sz ps es rs /\ forall idx, inb (map sz (map kind (fst r))) idx -> value sz (given_and_results eB ps rs) (fst r) (snd r) idx = r0).
  { intros r Hr. destruct (@vanishes_delta_sound _ _ _ _ _ (@all_vanish_each _ _ _ _ _ H Hr) F sz H0 m pa P eB HS es Hes') as (rs & R & V).
    apply shared_return in R. rewrite shared_results in V. exists rs. split; assumption. }
  destruct l as [|r0 l]; [contradiction|]. destruct (A r0 (or_introl eq_refl)) as (rs & R & _). exists rs. split; [exact R|].
  intros r Hr. destruct (A r Hr) as (rs' & R' & V). rewrite (@returns_unique _ _ _ _ _ _ R R'). exact V.
Qed.

Theorem energy_sound B S T ps trace_H energy residual : energy_check B S T ps trace_H energy residual = true -> energy_of_densities B S T ps trace_H energy residual.
Proof.
  intros H F sz H0 m pa P eB HS es Hes. apply andb_prop in H as [Hr H].
  destruct (@shared_sound _ _ _ _ _ H ltac:(discriminate) F sz H0 m pa P eB HS es Hes) as (rs & R & V). exists rs. split; [exact R|].
  specialize (V _ (or_introl eq_refl) [] ltac:(constructor)). cbn [fst snd] in V. apply (@value_minus F H0) in V. rewrite (@value_app F) in V.
  cbv zeta. split; [exact V|]. intros Z. rewrite V, (@value_residual F sz _ [] residual [] Hr Z).
  clear. set (w := value _ _ _ _ _). clearbody w. rewrite (Radd_comm (rth F)). apply (Radd_0_l (rth F)).
Qed.

(** ** Numbers of electrons *)
Definition identities : prog :=
  mkprog [] [Assign n_delta'oo (Plain (Eye 0)); Assign n_delta'aa'oo (Plain (Eye 4)); Assign n_delta'bb'oo (Plain (Eye 6))]
    [(n_delta'oo, [0; 0]); (n_delta'aa'oo, [4; 4]); (n_delta'bb'oo, [6; 6])].
Definition identity_of (k : cls) : option ref := match k with 0 => Some n_delta'oo | 4 => Some n_delta'aa'oo | 6 => Some n_delta'bb'oo | _ => None end.
(** The formula (c n_k + d) g, where n_k is the trace of the identity. *)
Definition spare (k : cls) : nat := 10 * k + 9.
Definition counted (f : factor) (g : formula) : option formula :=
  match f with (c, k, d) =>
    match identity_of k with
    | Some x => Some (map (fun m : monomial => (((c * fst (fst m))%Z, snd (fst m)), (nm 3 x, [spare k; spare k]) :: snd m)) g ++ scaled d g)
    | None => None
    end
  end.
Definition no_identity (y : ref) : bool := match y with xI (xI (xI _)) => false | _ => true end.
Definition plain (out : list nat) (k : cls) (g : formula) : bool :=
  forallb (fun m : monomial => match summed (map snd (snd m)) out with [] => true | _ => false end &&
    (if list_eq_dec Nat.eq_dec (summed ([spare k; spare k] :: map snd (snd m)) out) [spare k] then true else false) &&
    forallb (fun f => negb (existsb (Nat.eqb (spare k)) (snd f))) (snd m)) g.
Definition named (fm : formula) : bool := forallb (fun m : monomial => forallb (fun f => no_identity (fst f)) (snd m)) fm.
Definition trace_relation (t : list nat * formula * factor * formula) : option (list nat * formula) :=
  match t with (out, lhs, f, g) =>
    if plain out (snd (fst f)) g && named lhs && named g then
      match counted f g with Some h => Some (out, lhs ++ scaled (-1) h) | None => None end
    else None
  end.
Fixpoint all_some {A} (l : list (option A)) : option (list A) :=
  match l with [] => Some [] | Some x :: l' => match all_some l' with Some l'' => Some (x :: l'') | None => None end | None :: _ => None end.
Definition traces_check (B : list (ref * list cls)) (S : symmetries) (T : table) (p1 p2 : prog) (l : list (list nat * formula * factor * formula)) : bool :=
  match all_some (map trace_relation l) with Some (r :: rs) => all_vanish B S (map (fun p => (T, p)) [p1; p2; identities]) (r :: rs) | _ => false end.

Lemma all_some_in {A C} (f : A -> option C) l r : all_some (map f l) = Some r -> forall x, In x l -> exists y, f x = Some y /\ In y r.
Proof.
  revert r. induction l as [|a l IH]; intros r H x Hx; [destruct Hx|]. cbn [map all_some] in H. destruct (f a) as [b|] eqn:E; [|discriminate].
  destruct (all_some (map f l)) as [r'|]; [|discriminate]. injection H as <-. destruct Hx as [<-|Hx].
  - exists b. split; [exact E|left; reflexivity].
  - destruct (IH r' eq_refl x Hx) as (y & Hy & Hi). exists y. split; [exact Hy|right; exact Hi].
Qed.

Section Count.
  Variable F : fld.
  Hypothesis H0 : characteristic_zero F.
  Local Open Scope rng_scope.
  Add Ring RringDens3 : (rth F).
  Variable sz : cls -> nat.
  Lemma spare_kind k : kind (spare k) = k.
  Proof. unfold kind, spare. rewrite (Nat.mul_comm 10), Nat.div_add_l by lia. change (9 / 10)%nat with 0%nat. lia. Qed.
  Lemma rsum_const (v : F) n : forall a, rsum (map (fun _ => v) (seq a n)) = rnat n * v.
  Proof. induction n as [|n IH]; intros a; cbn [seq map rnat]; [cbn; ring|]. change (v + rsum (map (fun _ => v) (seq (S a) n)) = (1 + rnat n) * v). rewrite IH. ring. Qed.
  Lemma count_ok (d : list nat -> F) out k (fs : list (list nat * (list nat -> F))) idx :
    (forall v, (v < sz k)%nat -> d [v; v] = 1) -> summed (map fst fs) out = [] -> summed ([spare k; spare k] :: map fst fs) out = [spare k] ->
    (forall ls, In ls (map fst fs) -> ~ In (spare k) ls) ->
    ein F (fun l => sz (kind l)) ([spare k; spare k] :: map fst fs) out (d :: map snd fs) idx = rnat (sz k) * ein F (fun l => sz (kind l)) (map fst fs) out (map snd fs) idx.
  Proof.
    intros Hd H1 H2 Hn. unfold ein. rewrite H1, H2. cbn [sum_over]. rewrite spare_kind. rewrite <- (rsum_const _ (sz k) 0).
    apply rsum_map_ext. intros v Hv. apply in_seq in Hv. cbn [combine map fst snd]. change (rprod (?a :: ?l)) with (a * rprod l).
    assert (U : upd (env_of out idx) (spare k) v (spare k) = v) by (unfold upd; rewrite Nat.eqb_refl; reflexivity). rewrite U, Hd by lia.
    replace (map (fun p => snd p (map (upd (env_of out idx) (spare k) v) (fst p))) (combine (map fst fs) (map snd fs)))
      with (map (fun p => snd p (map (env_of out idx) (fst p))) (combine (map fst fs) (map snd fs))); [ring|].
    apply map_ext_in. intros [ls f] Hp. cbn [fst snd]. f_equal. apply map_ext_in. intros l Hl. unfold upd. destruct (Nat.eqb_spec l (spare k)) as [->|]; [|reflexivity].
    exfalso. apply (Hn ls); [|exact Hl]. apply in_combine_l in Hp. exact Hp.
  Qed.
  Lemma value_env (e e' : env F) out fm idx : named fm = true -> (forall y, no_identity y = true -> e y = e' y) -> value sz e out fm idx = value sz e' out fm idx.
  Proof.
    intros H E. unfold value. apply rsum_map_ext. intros m Hm. f_equal. f_equal. apply map_ext_in. intros f Hf. unfold named in H. rewrite forallb_forall in H. specialize (H m Hm). rewrite forallb_forall in H. rewrite (E _ (H f Hf)). reflexivity.
  Qed.
End Count.

Lemma identities_run (F : fld) method path sz (e : env F) : exists r, run method path sz identities e = Ok r /\
  forall k x, identity_of k = Some x -> forall v, v < sz k -> tens F (results F (p_out identities) r x) [v; v] = r1.
Proof.
  exists [tab [sz 0; sz 0] (fun idx => if (nth 0 idx 0 =? nth 1 idx 0)%nat then r1 else r0); tab [sz 4; sz 4] (fun idx => if (nth 0 idx 0 =? nth 1 idx 0)%nat then r1 else r0); tab [sz 6; sz 6] (fun idx => if (nth 0 idx 0 =? nth 1 idx 0)%nat then r1 else r0)].
  split; [reflexivity|]. intros k x Hk v Hv.
  assert (K : x = n_delta'oo /\ k = 0 \/ x = n_delta'aa'oo /\ k = 4 \/ x = n_delta'bb'oo /\ k = 6).
  { destruct k as [|[|[|[|[|[|[|k]]]]]]]; cbn in Hk; try discriminate; injection Hk as <-; tauto. }
  destruct K as [[-> ->]|[[-> ->]|[-> ->]]]; cbn [results p_out identities]; unfold tens; cbn [Pos.eqb n_delta'oo n_delta'aa'oo n_delta'bb'oo bindv].
  all: (rewrite aget_tab; [cbn [nth]; rewrite Nat.eqb_refl; reflexivity|repeat constructor; assumption]).
Qed.

Theorem traces_sound B S T p1 p2 l : traces_check B S T p1 p2 l = true -> traces_hold B S T p1 p2 l.
Proof.
  intros H F sz H0 m pa P eB HS e1 e2 C1 C2. unfold traces_check in H. destruct (all_some (map trace_relation l)) as [rl|] eqn:El; [|discriminate].
  destruct rl as [|r0 rl0]; [discriminate|]. remember (r0 :: rl0) as rl eqn:Erl. assert (Hne : rl <> []) by (rewrite Erl; discriminate).
  destruct (@shared_sound _ _ _ _ _ H Hne F sz H0 m pa P eB HS [e1; e2; fun _ => None]) as (rs & R & V).
  { constructor; [exact C1|]. constructor; [exact C2|]. constructor; [|constructor]. split; intros ? ? []. }
  unfold all_return in R. cbn [combine] in R. inversion R as [|? r1 ? rs1 R1 R' Ea Eb]. inversion R' as [|? r2 ? rs2 R2 R'' Ec Ed]. inversion R'' as [|? r3 ? rs3 R3 R4 Ee Ef]. inversion R4; clear R4. subst rs rs1 rs2 rs3.
  cbn [fst snd] in R1, R2, R3. exists r1, r2. split; [exact R1|]. split; [exact R2|]. cbv zeta. intros out lhs f g Ht idx Hi.
  destruct (@identities_run F m pa sz (fun _ => None)) as (r3' & R3' & I). rewrite R3 in R3'. injection R3' as <-.
  destruct (@all_some_in _ _ _ _ _ El _ Ht) as ([out' h'] & Eh & Hh). unfold trace_relation in Eh.
  destruct (plain out (snd (fst f)) g && named lhs && named g) eqn:Ep; [|discriminate]. apply andb_prop in Ep as [Ep Ng]. apply andb_prop in Ep as [Ep Nl].
  destruct f as [[c k] d]. cbn [fst snd] in Ep. unfold counted in Eh. destruct (identity_of k) as [z|] eqn:Ex; [|discriminate]. injection Eh as <- <-.
  specialize (V _ Hh idx Hi). cbn [fst snd] in V. apply (@value_minus F H0) in V. rewrite (@value_app F), (@value_scaled F H0) in V.
  set (all := given_and_results eB [p1; p2; identities] [r1; r2; r3]) in V.
  assert (E : forall y, no_identity y = true -> all y = together [eB; results F (p_out p1) r1; results F (p_out p2) r2] y).
  { intros y Hy. destruct y as [[[y|y|]|y|]|y|]; try discriminate Hy; reflexivity. }
  rewrite (@value_env F sz all _ out lhs idx Nl E) in V. rewrite (@value_env F sz all _ out g idx Ng E) in V. rewrite V.
  etransitivity; [apply (f_equal (fun w => radd w _)); apply (@value_map_coef F H0 sz all out c (fun fs => (nm 3 z, [spare k; spare k]) :: fs) idx g (rnat (sz k)))|].
  - intros mo Hm. unfold plain in Ep. rewrite forallb_forall in Ep. specialize (Ep mo Hm). apply andb_prop in Ep as [Ep E3]. apply andb_prop in Ep as [Ep1 Ep2].
    destruct (summed (map snd (snd mo)) out) eqn:Es; [|discriminate Ep1]. destruct (list_eq_dec Nat.eq_dec _ _) as [Es2|]; [|discriminate Ep2].
    pose proof (@count_ok F sz (tens F (all (nm 3 z))) out k (map (fun f => (snd f, tens F (all (fst f)))) (snd mo)) idx) as C. rewrite !map_map in C. cbn [fst snd] in C.
    cbn [map fst snd]. apply C.
    + intros v Hv. exact (I k z Ex v Hv).
    + exact Es.
    + exact Es2.
    + intros ls Hls. apply in_map_iff in Hls as (f & <- & Hf). rewrite forallb_forall in E3. specialize (E3 f Hf). intros Hin. apply Bool.negb_true_iff in E3.
      assert (X : existsb (Nat.eqb (spare k)) (snd f) = true) by (apply existsb_exists; exists (spare k); split; [exact Hin|apply Nat.eqb_refl]). congruence.
  - rewrite (@value_env F sz all _ out g idx Ng E). unfold electrons. symmetry. apply (Rdistr_l (rth F)).
Qed.

(** ** Symmetries *)
Lemma own_each B S T p Touts Tout : own B S T p Touts = true -> In Tout Touts -> own_symmetry B S T p Tout.
Proof.
  intros H Hi F sz H0 m pa P eB HS e [A G]. destruct (@own_sound _ _ _ _ _ H F sz H0 m pa P eB e HS A G) as (r & R & V). exists r. split; [exact R|]. exact (V _ Hi).
Qed.

(** ** Agreement *)
Definition restricted_check (q u : prog) (Tout : table) : bool :=
  compare_calls spatial spatial_symmetries [(closed_shell, ren closed u)] id_blocks restricted q Tout.
Lemma splits_id sz : splits sz id_blocks.
Proof. intros c. split; [repeat constructor; intros []|]. cbn. lia. Qed.
Theorem restricted_sound q u Tout : restricted_check q u Tout = true -> restricted_densities q u Tout.
Proof.
  intros H F sz H0 m1 m2 p1 p2 P1 P2 eB HS e1 e2 [A1 G1] A2 G2.
  destruct (@compare_calls_sound _ _ _ _ _ _ _ H F sz H0 (splits_id sz) m2 m1 p2 p1 P2 P1 eB [e2] e1 HS) as (rs & r & Q & R0 & V); [|exact A1|exact G1|].
  - constructor; [exact (@part_called F closed sz _ eB u e2 A2 G2)|constructor].
  - cbn [combine] in Q. inversion Q as [|? r2 ? rs1 Q1 Q' E1 E1']. inversion Q'. subst. cbn [fst snd] in Q1. rewrite run_ren in Q1.
    exists r, r2. split; [exact R0|]. split; [exact Q1|]. intros k x cs Hk. specialize (V k x cs Hk). cbn [combine map fst snd ren p_out] in V. rewrite results_ren in V. exact V.
Qed.
Theorem general_sound u g Tout : compare spin_blocks spin_blocks_symmetries unrestricted u spin_split spin_orbital g Tout = true -> general_densities u g Tout.
Proof.
  intros H F sz H0 Hs m1 m2 p1 p2 P1 P2 eB HS e1 e2 [A1 G1] A2 G2. exact (@compare_sound _ _ _ _ _ _ _ _ H F sz H0 Hs m1 m2 p1 p2 P1 P2 eB e1 e2 HS A1 G1 A2 G2).
Qed.
