(** Relations between the results of one generated function. *)
From Coq Require Import List ZArith Lia.
From Verif Require Import Base Alg ArrModel EinsumModel CgModel CgSpec CgFormSpec CgProofs CgPoly CgCompare CgCompareProofs.
Import ListNotations.
Set Implicit Arguments.
Local Open Scope nat_scope.

(** The function is run once; then all tables are checked. *)
Definition own (B : list (ref * list cls)) (S : symmetries) (T : table) (p : prog) (Touts : list table) : bool :=
  let K := kmap B in
  let syms := smap S in
  syms_ok K S && (match pget n_delta K with None => true | _ => false end) &&
  match tinputs syms id_split (atom K) T (p_in p) with
  | Some ip =>
      match check (poly_ops syms id_split) (init (poly_ops syms id_split) ip PL) (p_body p) with
      | Some G =>
          check_outs (poly_ops syms id_split) (fun _ _ => true) G (p_out p) &&
          forallb (fun Tout => forallb (fun o => match pget (fst o) G with
                            | Some (cs, d) => eql cs (snd o) && result_ok syms (find_out G (p_out p)) Tout (fst o) (patterns id_split (snd o)) d
                            | None => false
                            end) (p_out p)) Touts
      | _ => false
      end
  | _ => false
  end.

Theorem own_sound B S T p Touts : own B S T p Touts = true ->
  forall (F : fld) sz, characteristic_zero F ->
  forall method path, path_ok path ->
  forall eB e : env F, symmetric sz S B eB ->
  args_ok sz (p_in p) e -> (forall x cs, In (x, cs) (p_in p) -> given_by sz id_split T eB x cs (tens F (e x))) ->
  exists r, run method path sz p e = Ok r /\
    forall Tout, In Tout Touts -> forall k x cs, nth_error (p_out p) k = Some (x, cs) -> given_by sz id_split Tout (results F (p_out p) r) x cs (entry F r k).
Proof.
  intros H F sz H0 m pa P eB e HS A G.
  assert (C : forall Tout, (forall T0, In T0 Touts -> compare B S T p id_split T p T0 = true) /\ (Touts = [] -> compare B S T p id_split T (mkprog (p_in p) (p_body p) []) Tout = true)).
  { intros Tout. unfold own in H. unfold compare.
    apply andb_prop in H as [H H2]. rewrite H. 
    destruct (tinputs _ id_split _ _ _) as [ip|] eqn:Eip; [|discriminate].
    destruct (check _ _ (p_body p)) as [Gp|] eqn:Ep; [|discriminate].
    apply andb_prop in H2 as [Ho H2]. split.
    - intros T0 Hi. rewrite Ho. cbn [andb]. rewrite forallb_forall in H2. apply (H2 T0 Hi).
    - intros _. cbn [p_in p_body p_out forallb]. rewrite Ep, Ho. reflexivity. }
  destruct Touts as [|T1 Ts].
  - destruct (C []) as [_ C2]. destruct (@compare_sound _ _ _ _ _ _ _ _ (C2 eq_refl) F sz H0 (splits_id sz) m m pa pa P P eB e e HS A G A G) as (r1 & r2 & R1 & _ & _).
    exists r1. split; [exact R1|intros ? []].
  - destruct (@compare_sound _ _ _ _ _ _ _ _ (proj1 (C []) T1 (or_introl eq_refl)) F sz H0 (splits_id sz) m m pa pa P P eB e e HS A G A G) as (r1 & _ & R1 & _ & _).
    exists r1. split; [exact R1|]. intros T0 Hi.
    destruct (@compare_sound _ _ _ _ _ _ _ _ (proj1 (C []) T0 Hi) F sz H0 (splits_id sz) m m pa pa P P eB e e HS A G A G) as (r & r' & R & R' & V).
    rewrite R1 in R, R'. injection R as <-. injection R' as <-. exact V.
Qed.
