(** A function followed by another one that uses its results, as one function. *)
From Coq Require Import List ZArith Lia.
From Verif Require Import Base Alg ArrModel TensorModel EinsumModel EinPathModel CgModel CgSpec CgProofs CgNames CgChainSpec CgBuild.
Import ListNotations.
Set Implicit Arguments.
Local Open Scope py_scope.

Definition pass (o : ref * list cls) : list stmt := match is_temporary (fst o) with Some n => [Assign (IT n) (Plain (Copy (fst o)))] | None => [] end.
Definition chain (p q : prog) : prog :=
  mkprog (p_in p ++ filter (fun i => match is_intermediate (fst i) with Some _ => false | None => negb (existsb (Pos.eqb (fst i)) (map fst (p_in p))) end) (p_in q))
         (p_body p ++ flat_map pass (p_out p) ++ p_body q) (p_out q).

(** Names that are defined: a program reads only such names. *)
Definition names := pmap unit.
Definition known (D : names) (x : ref) : bool := match pget x D with Some _ => true | None => false end.
Definition reads (r : rhs) : list ref := match r with Einsum fs _ => map fst fs | Transpose x _ => [x] | Copy x => [x] | Zeros _ => [] | Eye _ => [] end.
Definition ereads (e : expr) : list ref := match e with Plain r => reads r | Times r _ _ => reads r end.
Definition flow1 (D : names) (s : stmt) : option names :=
  match s with
  | Assign x e => if forallb (known D) (ereads e) then Some (pset x (Some tt) D) else None
  | AddTo x e | SubFrom x e => if known D x && forallb (known D) (ereads e) then Some (pset x (Some tt) D) else None
  | Del x => if known D x then Some (pset x None D) else None
  end.
Fixpoint flow (D : names) (b : list stmt) : option names := match b with [] => Some D | s :: b' => match flow1 D s with Some D' => flow D' b' | None => None end end.
Definition writes (s : stmt) : ref := match s with Assign x _ | AddTo x _ | SubFrom x _ | Del x => x end.
Fixpoint known_of (l : list ref) : names := match l with [] => PL | x :: l' => pset x (Some tt) (known_of l') end.
Definition pair_eqb (a b : ref * list cls) : bool := Pos.eqb (fst a) (fst b) && eql (snd a) (snd b).
Definition chain_ok (p q : prog) : bool :=
  forallb (fun o => match is_temporary (fst o) with Some _ => true | None => false end) (p_out p) &&
  nodup_names (map fst (p_out p)) &&
  forallb (fun i => match is_intermediate (fst i) with
                    | Some n => existsb (Pos.eqb (T n)) (map fst (p_out p))
                    | None => true
                    end) (p_in q) &&
  (let W := known_of (map writes (p_body p)) in forallb (fun i => match is_intermediate (fst i) with Some _ => true | None => negb (known W (fst i)) end) (p_in q)) &&
  (match flow (known_of (map fst (p_in q))) (p_body q) with Some D => forallb (fun o => known D (fst o)) (p_out q) | None => false end) &&
  forallb (fun i => existsb (pair_eqb i) (p_in (chain p q))) (product_arguments p q) &&
  nodup_names (map fst (p_in (chain p q))).

Lemma known_of_in l x : known (known_of l) x = true <-> In x l.
Proof.
  induction l as [|y l IH]; cbn [known_of In].
  - unfold known. rewrite pget_L. split; [discriminate|intros []].
  - unfold known in *. rewrite pget_set. destruct (Pos.eqb_spec x y) as [->|N].
    + split; [left; reflexivity|reflexivity].
    + rewrite IH. split; [right; assumption|intros [E|H]; [congruence|exact H]].
Qed.

Section Exec.
  Variable F : fld.
  Variable method : option nat.
  Variable path : list (list nat) -> list nat -> list (list nat) -> list EinPathModel.contraction.
  Variable sz : cls -> nat.
  Notation env := (env F).
  Notation eval_rhs := (@eval_rhs F method path sz). Notation eval_expr := (@eval_expr F method path sz).
  Notation exec1 := (@exec1 F method path sz). Notation exec := (@exec F method path sz). Notation run := (@run F method path sz).
  Definition same_on (D : names) (e e' : env) : Prop := forall x, known D x = true -> e x = e' x.
  Lemma same_fetch D e e' x : same_on D e e' -> known D x = true -> fetch e x = fetch e' x.
  Proof. intros H K. unfold fetch. rewrite (H x K). reflexivity. Qed.
  Lemma same_fetches {X} D e e' (f : X -> ref) (l : list X) : same_on D e e' -> forallb (known D) (map f l) = true -> mapM (fun x => fetch e (f x)) l = mapM (fun x => fetch e' (f x)) l.
  Proof.
    intros H. induction l as [|x l IH]; cbn [map forallb mapM]; intros K; [reflexivity|]. apply andb_prop in K as [K1 K2].
    rewrite (same_fetch _ H K1), (IH K2). reflexivity.
  Qed.
  Lemma same_rhs D e e' r : same_on D e e' -> forallb (known D) (reads r) = true -> eval_rhs e r = eval_rhs e' r.
  Proof.
    intros H. destruct r as [fs out|x axes|x|cs|c]; cbn [reads CgModel.eval_rhs]; intros K; try reflexivity.
    - rewrite (same_fetches (@fst ref (list nat)) fs H K). reflexivity.
    - apply andb_prop in K as [K _]. rewrite (same_fetch _ H K). reflexivity.
    - apply andb_prop in K as [K _]. apply (same_fetch _ H K).
  Qed.
  Lemma same_expr D e e' x : same_on D e e' -> forallb (known D) (ereads x) = true -> eval_expr e x = eval_expr e' x.
  Proof. intros H. destruct x; cbn [ereads CgModel.eval_expr]; intros K; rewrite (same_rhs r H K); reflexivity. Qed.
  Lemma same_bind D e e' x v : same_on D e e' -> same_on (pset x (Some tt) D) (bindv e x v) (bindv e' x v).
  Proof. intros H y. unfold known. rewrite pget_set. unfold bindv. destruct (Pos.eqb y x); [reflexivity|apply H]. Qed.
  Lemma same_unbind D e e' x v : same_on D e e' -> same_on (pset x None D) (bindv e x v) (bindv e' x v).
  Proof. intros H y. unfold known. rewrite pget_set. unfold bindv. destruct (Pos.eqb y x); [reflexivity|apply H]. Qed.
  Lemma flow1_ok D D' s e e' a : flow1 D s = Some D' -> same_on D e e' -> exec1 e s = Ok a -> exists b, exec1 e' s = Ok b /\ same_on D' a b.
  Proof.
    destruct s as [x r|x r|x r|x]; cbn [flow1 CgModel.exec1]; intros K H E.
    - destruct (forallb _ _) eqn:K1; [|discriminate]. injection K as <-. rewrite <- (same_expr r H K1). destruct (eval_expr e r) as [v|]; [|discriminate]. cbn [bind] in E |- *.
      injection E as <-. eexists. split; [reflexivity|]. apply same_bind, H.
    - destruct (known D x && _) eqn:K1; [|discriminate]. injection K as <-. apply andb_prop in K1 as [K1 K2]. rewrite <- (same_fetch _ H K1), <- (same_expr r H K2).
      destruct (fetch e x); [|discriminate]. destruct (eval_expr e r) as [v|]; [|discriminate]. cbn [bind] in E |- *. destruct (arr_addM _ _ _); [|discriminate]. cbn [bind] in E |- *.
      injection E as <-. eexists. split; [reflexivity|]. apply same_bind, H.
    - destruct (known D x && _) eqn:K1; [|discriminate]. injection K as <-. apply andb_prop in K1 as [K1 K2]. rewrite <- (same_fetch _ H K1), <- (same_expr r H K2).
      destruct (fetch e x); [|discriminate]. destruct (eval_expr e r) as [v|]; [|discriminate]. cbn [bind] in E |- *. destruct (arr_addM _ _ _); [|discriminate]. cbn [bind] in E |- *.
      injection E as <-. eexists. split; [reflexivity|]. apply same_bind, H.
    - destruct (known D x) eqn:K1; [|discriminate]. injection K as <-. rewrite <- (same_fetch _ H K1). destruct (fetch e x); [|discriminate]. cbn [bind] in E |- *.
      injection E as <-. eexists. split; [reflexivity|]. apply same_unbind, H.
  Qed.
  Lemma flow_ok b : forall D D' e e' a, flow D b = Some D' -> same_on D e e' -> exec e b = Ok a -> exists a', exec e' b = Ok a' /\ same_on D' a a'.
  Proof.
    induction b as [|s b IH]; cbn [flow CgModel.exec]; intros D D' e e' a K H E.
    - injection K as <-. injection E as <-. exists e'. split; [reflexivity|exact H].
    - destruct (flow1 D s) as [D1|] eqn:K1; [|discriminate]. destruct (exec1 e s) as [a1|] eqn:E1; [|discriminate]. cbn [bind] in E.
      destruct (flow1_ok s K1 H E1) as (b1 & F1 & H1). rewrite F1. cbn [bind]. apply (IH D1 D' a1 b1 a K H1 E).
  Qed.
  Lemma exec_app b1 b2 : forall e, exec e (b1 ++ b2) = (e' <- exec e b1 ;; exec e' b2).
  Proof. induction b1 as [|s b1 IH]; intros e; cbn [app CgModel.exec]; [reflexivity|]. destruct (exec1 e s); cbn [bind]; [apply IH|reflexivity]. Qed.
  Lemma exec1_unwritten s e a x : exec1 e s = Ok a -> x <> writes s -> a x = e x.
  Proof.
    intros E N. destruct s as [y r|y r|y r|y]; cbn [CgModel.exec1 writes] in *;
      repeat (match type of E with bind ?m _ = _ => destruct m; [cbn [bind] in E|discriminate] end);
      injection E as <-; unfold bindv; destruct (Pos.eqb_spec x y) as [->|_]; congruence.
  Qed.
  Lemma exec_unwritten b : forall e a x, exec e b = Ok a -> ~ In x (map writes b) -> a x = e x.
  Proof.
    induction b as [|s b IH]; cbn [CgModel.exec map In]; intros e a x E N; [injection E as <-; reflexivity|].
    destruct (exec1 e s) as [e1|] eqn:E1; [|discriminate]. cbn [bind] in E. rewrite (IH _ _ _ E) by tauto. apply (@exec1_unwritten s _ _ _ E1). intros ->. apply N. left. reflexivity.
  Qed.
  Lemma IT_T n n' : IT n <> T n'.
  Proof. discriminate. Qed.
  (** Passing on the results. *)
  Lemma pass_ok outs : forall e a, forallb (fun o : ref * list cls => match is_temporary (fst o) with Some _ => true | None => false end) outs = true -> NoDup (map fst outs) ->
    exec e (flat_map pass outs) = Ok a ->
    exists ints, mapM (fun o => fetch e (fst o)) outs = Ok ints /\
      forall e0 x, match is_intermediate x with Some n => In (T n) (map fst outs) -> a x = with_ints outs ints e0 x | None => a x = e x end.
  Proof.
    induction outs as [|[o cs] outs IH]; intros e a K ND E; cbn [flat_map] in E.
    - cbn [CgModel.exec] in E. injection E as <-. exists []. split; [reflexivity|]. intros e0 x. destruct (is_intermediate x); [intros []|reflexivity].
    - cbn [forallb fst] in K. apply andb_prop in K as [K1 K]. cbn [map fst] in ND. inversion ND as [|? ? N1 N2]; subst.
      unfold pass in E at 1. cbn [fst] in E. destruct (is_temporary o) as [n|] eqn:Eo; [|discriminate].
      assert (o = T n) as -> by (destruct o as [[o|o|]|o|]; cbn in Eo; try discriminate; injection Eo as ->; reflexivity).
      cbn [app CgModel.exec CgModel.exec1 CgModel.eval_expr CgModel.eval_rhs bind] in E. destruct (fetch e (T n)) as [v|] eqn:Ev; [|discriminate]. cbn [bind] in E.
      destruct (IH _ a K N2 E) as (ints & M & A).
      assert (M' : mapM (fun o => fetch e (fst o)) outs = Ok ints).
      { rewrite <- M. clear -K. induction outs as [|[o' cs'] outs IH]; [reflexivity|]. cbn [forallb fst mapM] in *. apply andb_prop in K as [K1 K]. rewrite (IH K). f_equal.
        destruct (is_temporary o') as [m|] eqn:Eo; [|discriminate]. unfold fetch, bindv. destruct (Pos.eqb_spec o' (IT n)) as [->|]; [discriminate|reflexivity]. }
      exists (v :: ints). cbn [mapM fst]. rewrite Ev, M'. cbn [bind]. split; [reflexivity|]. intros e0 x. specialize (A e0 x). destruct (is_intermediate x) as [m|] eqn:Ex.
      + assert (x = IT m) as -> by (destruct x as [[x|x|]|x|]; cbn in Ex; try discriminate; injection Ex as ->; reflexivity).
        cbn [map fst In with_ints]. rewrite Eo. unfold bindv at 1. destruct (Pos.eqb_spec (IT m) (IT n)) as [Emn|Nmn].
        * intros _. injection Emn as ->. 
          assert (~ In (IT n) (map writes (flat_map pass outs))) as NW.
          { intros Hw. apply N1. clear -Hw K. induction outs as [|[o' cs'] outs IH]; [destruct Hw|]. cbn [forallb fst] in K. apply andb_prop in K as [K1 K].
            cbn [flat_map] in Hw. rewrite map_app in Hw. apply in_app_or in Hw as [Hw|Hw]; [|right; apply (IH K Hw)]. unfold pass in Hw. cbn [fst] in Hw.
            destruct (is_temporary o') as [m|] eqn:Eo; [|discriminate]. cbn [map writes] in Hw. destruct Hw as [Hw|[]]. injection Hw as <-. left.
            destruct o' as [[o'|o'|]|o'|]; cbn in Eo; try discriminate; injection Eo as ->; reflexivity. }
          rewrite (@exec_unwritten _ _ _ _ E NW). unfold bindv. rewrite Pos.eqb_refl. reflexivity.
        * intros [Hm|Hm]; [injection Hm as <-; congruence|]. apply A, Hm.
      + rewrite A. unfold bindv. destruct (Pos.eqb_spec x (IT n)) as [->|_]; [discriminate Ex|reflexivity].
  Qed.
  Theorem chain_product p q e r : chain_ok p q = true -> run (chain p q) e = Ok r -> product_is method path sz p q e r.
  Proof.
    unfold chain_ok. intros C R. repeat (let h := fresh "C" in apply andb_prop in C as [C h]). rename C into Ctemp, C5 into Cnd, C4 into Cints, C3 into Cw, C2 into Cflow.
    unfold CgModel.run in R. cbn [chain p_body p_out] in R. rewrite exec_app in R. destruct (exec e (p_body p)) as [e1|] eqn:E1; [|discriminate]. cbn [bind] in R.
    rewrite exec_app in R. destruct (exec e1 (flat_map pass (p_out p))) as [e2|] eqn:E2; [|discriminate]. cbn [bind] in R.
    destruct (exec e2 (p_body q)) as [e3|] eqn:E3; [|discriminate]. cbn [bind] in R.
    destruct (@pass_ok (p_out p) _ _ Ctemp (nodup_names_ok _ Cnd) E2) as (ints & M & A).
    exists ints. split; [unfold CgModel.run; rewrite E1; cbn [bind]; exact M|].
    destruct (flow _ (p_body q)) as [D|] eqn:Ef; [|discriminate].
    assert (S : same_on (known_of (map fst (p_in q))) e2 (with_ints (p_out p) ints e)).
    { intros x Hx. apply known_of_in in Hx. apply in_map_iff in Hx as ([y cs] & Ey & Hx). cbn [fst] in Ey. subst y. specialize (A e x).
      rewrite forallb_forall in Cints, Cw. specialize (Cints _ Hx). specialize (Cw _ Hx). cbn [fst] in Cints, Cw. destruct (is_intermediate x) as [n|] eqn:Ex.
      - apply A. apply existsb_exists in Cints as (y & Hy & Ey). apply Pos.eqb_eq in Ey. subst y. exact Hy.
      - rewrite A, (@exec_unwritten _ _ _ _ E1).
        + symmetry. clear -Ex Ctemp. revert ints. induction (p_out p) as [|[o cs'] outs IH]; intros ints; cbn [with_ints]; [destruct ints; reflexivity|]. destruct ints as [|v ints]; [reflexivity|].
          cbn [forallb fst] in Ctemp. apply andb_prop in Ctemp as [_ C]. destruct (is_temporary o) as [n|]; [|apply (IH C)]. unfold bindv. destruct (Pos.eqb_spec x (IT n)) as [->|_]; [discriminate|apply (IH C)].
        + intros Hw. apply known_of_in in Hw. rewrite Hw in Cw. discriminate. }
    destruct (@flow_ok _ _ _ _ _ _ Ef S E3) as (a' & E3' & S3). unfold CgModel.run. rewrite E3'. cbn [bind]. rewrite <- R. symmetry.
    apply (same_fetches (fun o : ref * list cls => fst o) (p_out q) S3). rewrite forallb_forall in Cflow |- *. intros x Hx. apply in_map_iff in Hx as (o & <- & Ho). apply (Cflow _ Ho).
  Qed.
  Lemma chain_arguments p q (P : ref -> list cls -> Prop) : chain_ok p q = true ->
    (forall x cs, In (x, cs) (product_arguments p q) -> P x cs) <-> (forall x cs, In (x, cs) (p_in (chain p q)) -> P x cs).
  Proof.
    unfold chain_ok. intros C. apply andb_prop in C as [C _]. apply andb_prop in C as [_ C]. split; intros H x cs Hx.
    - apply H. unfold product_arguments. cbn [chain p_in] in Hx. apply in_app_or in Hx as [Hx|Hx]; apply in_or_app; [left; exact Hx|right].
      apply filter_In in Hx as [Hx Ex]. apply filter_In. split; [exact Hx|]. destruct (is_intermediate (fst (x, cs))); [discriminate|reflexivity].
    - rewrite forallb_forall in C. specialize (C _ Hx). apply existsb_exists in C as ([y ds] & Hy & Ey). unfold pair_eqb in Ey. cbn [fst snd] in Ey. apply andb_prop in Ey as [Ey Ed].
      apply Pos.eqb_eq in Ey. apply eql_ok in Ed. subst. apply H, Hy.
  Qed.
End Exec.
