(** Several calls compared with one call on divided axes. *)
From Coq Require Import List ZArith QArith.
From Verif Require Import Base Alg ArrModel EinsumModel CgModel CgSpec CgFormSpec CgProofs CgPoly CgPolyProofs CgPolyDom CgCompare CgCompareProofs CgRelSpec CgRel CgRelProofs.
Import ListNotations.
Set Implicit Arguments.
Local Open Scope nat_scope.

Definition compare_calls (B : list (ref * list cls)) (S : symmetries) (calls : list (table * prog)) (split : cls -> list cls) (Tq : table) (q : prog) (Tout : table) : bool :=
  if syms_ok (kmap B) S && (match pget n_delta (kmap B) with None => true | _ => false end) then
    match sym_calls B S calls, tinputs (smap S) split (atom (kmap B)) Tq (p_in q) with
    | Some l, Some iq =>
        match check (poly_ops (smap S) split) (init (poly_ops (smap S) split) iq PL) (p_body q) with
        | Some Gq =>
            forallb (fun o => match pget (fst o) Gq with
                              | Some (cs, d) => eql cs (snd o) && result_ok (smap S) (together (atom (kmap B) :: l)) Tout (fst o) (patterns split (snd o)) d
                              | None => false
                              end) (p_out q)
        | None => false
        end
    | _, _ => false
    end
  else false.

Lemma calls_ok (F : fld) (H0 : characteristic_zero F) sz B S (Hs : syms_ok (kmap B) S = true) (Hdel : pget n_delta (kmap B) = None)
  (eB : env F) (HS : symmetric sz S B eB) m pa (P : path_ok pa) : forall calls es, Forall2 (fun c e => called_with sz eB (fst c) (snd c) e) calls es ->
  forall l, sym_calls B S calls = Some l ->
  exists rs, Forall2 (fun ce r => run m pa sz (snd (fst ce)) (snd ce) = Ok r) (combine calls es) rs /\
    Forall2 (denotes sz B eB) l (map (fun cr => results F (p_out (snd (fst cr))) (snd cr)) (combine calls rs)).
Proof.
  intros calls es Hes. induction Hes as [|c e calls es He Hes IH]; intros l El; cbn [sym_calls] in El.
  - injection El as <-. exists []. split; constructor.
  - destruct (sym_call B S c) as [o|] eqn:Eo; [|discriminate]. destruct (sym_calls B S calls) as [l'|]; [|discriminate]. injection El as <-.
    destruct (IH l' eq_refl) as (rs & R & D). destruct (@sym_call_ok F H0 sz B S Hs Hdel eB HS c o e m pa Eo P He) as (r & R1 & D1).
    exists (r :: rs). split; constructor; assumption.
Qed.

Theorem compare_calls_sound B S calls split Tq q Tout : compare_calls B S calls split Tq q Tout = true ->
  forall (F : fld) sz, characteristic_zero F -> splits sz split ->
  forall method1 method2 path1 path2, path_ok path1 -> path_ok path2 ->
  forall (eB : env F) es e2, symmetric sz S B eB ->
  Forall2 (fun c e => called_with sz eB (fst c) (snd c) e) calls es ->
  args_ok sz (p_in q) e2 -> (forall x cs, In (x, cs) (p_in q) -> given_by sz split Tq eB x cs (tens F (e2 x))) ->
  exists rs r2, Forall2 (fun ce r => run method1 path1 sz (snd (fst ce)) (snd ce) = Ok r) (combine calls es) rs /\ run method2 path2 sz q e2 = Ok r2 /\
    forall k x cs, nth_error (p_out q) k = Some (x, cs) ->
      given_by sz split Tout (together (eB :: map (fun cr => results F (p_out (snd (fst cr))) (snd cr)) (combine calls rs))) x cs (entry F r2 k).
Proof.
  intros H F sz H0 Hsp m1 m2 p1 p2 P1 P2 eB es e2 HS Hes A2 G2. unfold compare_calls in H.
  destruct (syms_ok (kmap B) S && _) eqn:Hc; [|discriminate]. apply andb_prop in Hc as [Hs Hd].
  assert (Hdel : pget n_delta (kmap B) = None) by (destruct (pget n_delta (kmap B)); [discriminate|reflexivity]).
  destruct (sym_calls B S calls) as [l|] eqn:El; [|discriminate]. destruct (tinputs _ split _ _ _) as [iq|] eqn:Eiq; [|discriminate].
  destruct (check _ _ (p_body q)) as [Gq|] eqn:Eq; [|discriminate].
  destruct (@calls_ok F H0 sz B S Hs Hdel eB HS m1 p1 P1 calls es Hes l El) as (rs & R & D).
  assert (Eoq' : check_outs (poly_ops (smap S) split) (fun _ _ => true) Gq (p_out q) = true).
  { unfold check_outs. rewrite forallb_forall in *. intros o Ho. specialize (H o Ho).
    destruct (pget (fst o) Gq) as [[cs d]|]; [|discriminate]. apply andb_prop in H as [-> _]. reflexivity. }
  destruct (@poly_run F H0 sz B S eB HS Hs Hdel q Tq split iq Gq m2 p2 e2 Hsp P2 Eiq Eq Eoq' A2 G2) as (r2 & R2 & L2 & V2).
  exists rs, r2. split; [exact R|]. split; [exact R2|]. intros k x cs Hk pat idx Hpat Hi.
  destruct (V2 k x cs Hk) as (d & Ed & Vd). rewrite (Vd pat idx Hpat Hi).
  rewrite forallb_forall in H. specialize (H (x, cs) (nth_error_In _ _ Hk)). cbn [fst snd] in H. rewrite Ed in H.
  apply andb_prop in H as [_ Er]. unfold result_ok in Er. destruct (tblocks _ _ _ _ _) as [b|] eqn:Eb; [|discriminate].
  rewrite forallb_forall in Er. specialize (Er pat Hpat). rewrite (@same_ok F H0 sz (bval sz B eB) _ _ idx Er). symmetry.
  exact (@tblocks_ok F H0 sz (bval sz B eB) (smap S) (@bval_sym F sz B S eB HS Hs) (together (atom (kmap B) :: l))
    (together (eB :: map (fun cr => results F (p_out (snd (fst cr))) (snd cr)) (combine calls rs)))
    (together_denotes (Forall2_cons _ _ (@atom_denotes F H0 sz B Hdel eB) D)) Tout x (patterns split cs) b (patterns_nodup Hsp cs) Eb pat idx Hpat Hi).
Qed.

(** Two parts and the whole. *)
From Verif Require Import CgRename CgPartSpec CgBuild CgAgree2.
Definition extensive (B : list (ref * list cls)) (S : symmetries) (T R : table) (p : prog) : bool :=
  compare_calls (both B) (both_symmetries S) [(part_table false T, ren (part false) p); (part_table true T, ren (part true) p)]
    two_parts (whole_table T) p (sum_of_parts (names_of R)).
Lemma results_ren (F : fld) rho outs : forall (rs : list (arr F)), results F (ren_list rho outs) rs = results F outs rs.
Proof. induction outs as [|[x cs] outs IH]; intros [|r rs]; cbn; try reflexivity. fold (ren_list rho outs). rewrite IH. reflexivity. Qed.
Lemma part_called (F : fld) rho sz T (eB : env F) p e :
  args_ok (fun c => sz (rho c)) (p_in p) e -> (forall x cs, In (x, cs) (p_in p) -> given_by sz id_blocks T eB x (map rho cs) (tens F (e x))) ->
  called_with sz eB T (ren rho p) e.
Proof.
  intros A G. split; [exact (proj1 (ren_args F rho sz p e) A)|]. intros x ds Hx. apply in_ren in Hx as (cs & Hx & ->). apply G, Hx.
Qed.
Lemma extensive_sound B S T R p : extensive B S T R p = true ->
  forall (F : fld) sz, characteristic_zero F -> splits sz two_parts ->
  forall method1 method2 path1 path2, path_ok path1 -> path_ok path2 ->
  forall eB e1 e2 e : env F, symmetric sz (both_symmetries S) (both B) eB ->
  args_ok (fun c => sz (part false c)) (p_in p) e1 -> (forall x cs, In (x, cs) (p_in p) -> given_by sz id_blocks (part_table false T) eB x (map (part false) cs) (tens F (e1 x))) ->
  args_ok (fun c => sz (part true c)) (p_in p) e2 -> (forall x cs, In (x, cs) (p_in p) -> given_by sz id_blocks (part_table true T) eB x (map (part true) cs) (tens F (e2 x))) ->
  args_ok sz (p_in p) e -> (forall x cs, In (x, cs) (p_in p) -> given_by sz two_parts (whole_table T) eB x cs (tens F (e x))) ->
  exists r1 r2 r, run method1 path1 (fun c => sz (part false c)) p e1 = Ok r1 /\ run method1 path1 (fun c => sz (part true c)) p e2 = Ok r2 /\
    run method2 path2 sz p e = Ok r /\
    forall k x cs, nth_error (p_out p) k = Some (x, cs) ->
      given_by sz two_parts (sum_of_parts (names_of R)) (together [eB; results F (p_out p) r1; results F (p_out p) r2]) x cs (entry F r k).
Proof.
  intros H F sz H0 Hsp m1 m2 p1 p2 P1 P2 eB e1 e2 e HS A1 G1 A2 G2 A G.
  destruct (@compare_calls_sound _ _ _ _ _ _ _ H F sz H0 Hsp m1 m2 p1 p2 P1 P2 eB [e1; e2] e HS) as (rs & r & Q & R0 & V); [|exact A|exact G|].
  - constructor; [exact (@part_called F (part false) sz _ eB p e1 A1 G1)|]. constructor; [exact (@part_called F (part true) sz _ eB p e2 A2 G2)|constructor].
  - cbn [combine] in Q. inversion Q as [|? r1 ? rs1 Q1 Q' E1 E1']. inversion Q' as [|? r2 ? rs2 Q2 Q'' E2 E2']. inversion Q''. subst.
    cbn [fst snd] in Q1, Q2. rewrite run_ren in Q1, Q2. exists r1, r2, r. split; [exact Q1|]. split; [exact Q2|]. split; [exact R0|].
    intros k x cs Hk. specialize (V k x cs Hk). cbn [combine map fst snd ren p_out] in V. rewrite !results_ren in V. exact V.
Qed.
Lemma part_arguments p T (F : fld) sz (eB : env F) s : nodup_names (map fst (p_in p)) = true ->
  exists e, args_ok (fun c => sz (part s c)) (p_in p) e /\ (forall x cs, In (x, cs) (p_in p) -> given_by sz id_blocks T eB x (map (part s) cs) (tens F (e x))).
Proof.
  intros H. destruct (@arguments_exist_one (ren (part s) p) T F sz eB) as (e & A & G).
  - cbn [ren p_in]. unfold ren_list. rewrite map_map. exact H.
  - exists e. split; [exact (proj2 (ren_args F (part s) sz p e) A)|]. intros x cs Hx. apply G, (@ren_in (part s) p), Hx.
Qed.
Lemma whole_arguments p T (F : fld) sz (eB : env F) : splits sz two_parts -> nodup_names (map fst (p_in p)) = true ->
  exists e, args_ok sz (p_in p) e /\ (forall x cs, In (x, cs) (p_in p) -> given_by sz two_parts T eB x cs (tens F (e x))).
Proof.
  intros Hsp H. apply nodup_names_ok in H. exists (build sz two_parts T eB (p_in p)). split; [apply build_args, H|apply build_given; [exact Hsp|exact H]].
Qed.
