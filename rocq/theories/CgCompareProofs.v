(** Soundness of [compare]. *)
From Coq Require Import ZArith QArith Qreduction Lia Ring Field.
From Verif Require Import Base Alg ArrModel ListAux EinsumModel EinsumSpec TensorModel CgModel CgSpec CgFormSpec CgProofs CgPoly CgPolyProofs CgPolyDom CgCompare.
From Verif Require Import KernelProofs ArrProofs SymmProofs EinsumProofs EinsumThms EinPathThms TrilProofs.
Set Implicit Arguments.
Local Open Scope nat_scope.

Fixpoint inbb (s idx : list nat) : bool :=
  match s, idx with [], [] => true | n :: s', i :: idx' => (i <? n) && inbb s' idx' | _, _ => false end.
Lemma inbb_iff s idx : inbb s idx = true <-> inb s idx.
Proof.
  revert idx. induction s as [|n s IH]; intros [|i idx]; cbn; split; intros H; try discriminate; try constructor; try (inversion H; fail).
  - apply andb_prop in H as [H _]. apply Nat.ltb_lt, H.
  - apply andb_prop in H as [_ H]. apply IH, H.
  - inversion H; subst. apply andb_true_intro. split; [apply Nat.ltb_lt; assumption|apply IH; assumption].
Qed.
Lemma inb_gather_iff s idx axes : Permutation (seq 0 (length s)) axes -> gather s axes = s -> length idx = length s ->
  inb s (gather idx axes) <-> inb s idx.
Proof.
  intros Hp Hs HL. pose proof (@perm_seq_length _ _ Hp) as Ha. split; intros H.
  - apply inb_iff. split; [exact HL|]. intros k Hk.
    assert (Ik : In k axes) by (apply (@perm_seq_lt _ _ k Hp), Hk). apply In_nth with (d := 0) in Ik as (j & Hj & Ej).
    apply (inb_nth (k := j)) in H; [|lia]. unfold gather in H at 1. rewrite nth_map_lt with (d' := 0) in H by exact Hj. rewrite Ej in H.
    rewrite <- Hs in H. unfold gather in H. rewrite nth_map_lt with (d' := 0) in H by exact Hj. rewrite Ej in H. exact H.
  - rewrite <- Hs. apply gather_inb; [|exact H]. intros k Hk. apply (@perm_seq_lt _ _ k Hp), Hk.
Qed.
Lemma places_id sz cs : forall idx, length idx = length cs -> places sz id_split cs cs idx = idx.
Proof.
  induction cs as [|c cs IH]; intros [|i idx] H; cbn in H; try discriminate; [reflexivity|].
  cbn. rewrite Nat.eqb_refl. cbn. f_equal. apply IH. lia.
Qed.
Lemma splits_id sz : splits sz id_split.
Proof. intros c. split; [repeat constructor; intros []|cbn; lia]. Qed.
Lemma patterns_id cs : patterns id_split cs = [cs].
Proof. induction cs as [|c cs IH]; [reflexivity|]. unfold patterns in *. cbn. rewrite IH. reflexivity. Qed.

Section Sound.
  Variable F : fld.
  Add Field FfieldPol4 : (fth F).
  Local Open Scope rng_scope.
  Hypothesis H0 : characteristic_zero F.
  Variable sz : cls -> nat.
  Variable val : ref -> list nat -> F.
  Notation psem := (psem F sz val).
  Notation tsem := (tsem F sz val).

  Lemma rprod_cons (x : F) l : rprod (x :: l) = x * rprod l.
  Proof. reflexivity. Qed.
  Lemma scaleT_ok a d ts idx : psem (map (scaleT a d) ts) idx = coef F a d * psem ts idx.
  Proof.
    unfold CgPolyProofs.psem. rewrite map_map, <- rsum_map_mul_l. apply rsum_map_ext. intros t _. unfold CgPolyProofs.tsem. cbn [scaleT tq td tf].
    rewrite q2F_red, q2F_mul by exact H0. unfold q2F at 1. cbn [Qnum Qden]. ring.
  Qed.
  Lemma same_ok p q idx : same p q = true -> psem p idx = psem q idx.
  Proof.
    unfold same. destruct (padd p (map (scaleT (-1) 1) q)) eqn:E; [|discriminate]. intros _.
    assert (H : psem (padd p (map (scaleT (-1) 1) q)) idx = 0) by (rewrite E; reflexivity).
    rewrite padd_ok in H by exact H0. rewrite scaleT_ok in H.
    assert (Hc : coef F (-1) 1 = - (1)).
    { unfold coef. cbn [rZ]. pose proof (@rnat_pos F H0 1) as N. change (Pos.to_nat 1) with 1%nat in *. cbn [rnat] in *. assert (H1 : (1 : F) + 0 = 1) by ring. rewrite H1 in *. field. exact N. }
    rewrite Hc in H. transitivity (psem p idx + - (1) * psem q idx + psem q idx); [ring|rewrite H; ring].
  Qed.

  Section Formula.
    Variable opd : ref -> option (list cls * poly).
    Variable e : env F.
    Hypothesis Hopd : forall x cs q, opd x = Some (cs, q) -> forall idx, inb (map sz cs) idx -> tens F (e x) idx = psem q idx.

    Lemma operands_ok fs : forall ops, operands opd fs = Some ops ->
      map fst ops = map snd fs /\ Forall (fun o => poly_ok (length (fst o)) (snd o) = true) ops /\
      Forall2 (fun f o => fst o = snd f /\ forall idx, inb (map sz (map kind (snd f))) idx -> tens F (e (fst f)) idx = psem (snd o) idx) fs ops.
    Proof.
      induction fs as [|[x ls] fs IH]; intros ops E; cbn in E.
      - injection E as <-. repeat split; constructor.
      - destruct (opd x) as [[cs q]|] eqn:Ex; [|discriminate]. destruct (operands opd fs) as [r|]; [|discriminate].
        destruct (eql (map kind ls) cs && poly_ok (length cs) q)%bool eqn:Eb; [|discriminate]. injection E as <-.
        apply andb_prop in Eb as [E1 E2]. apply eql_ok in E1. destruct (IH r eq_refl) as (A & B & C). split; [cbn; f_equal; exact A|]. split.
        + constructor; [|exact B]. cbn [fst snd]. rewrite <- E1, map_length in E2. exact E2.
        + constructor; [|exact C]. split; [reflexivity|]. cbn [fst snd]. intros idx Hi. apply (@Hopd x cs q Ex idx). rewrite <- E1. exact Hi.
    Qed.
    Lemma compile1_ok out m ts idx : NoDup out -> compile1 opd out m = Some ts -> inb (map sz (map kind out)) idx ->
      coef F (fst (fst m)) (snd (fst m)) * ein F (fun l => sz (kind l)) (map snd (snd m)) out (map (fun f => tens F (e (fst f))) (snd m)) idx = psem ts idx.
    Proof.
      intros Hn E Hi. unfold compile1 in E. destruct (operands opd (snd m)) as [ops|] eqn:Eo; [|discriminate].
      destruct (inclb out (concat (map snd (snd m)))) eqn:Ei; [|discriminate]. injection E as <-. apply inclb_ok in Ei.
      rewrite scaleT_ok. f_equal. destruct (operands_ok _ Eo) as (A & B & C).
      set (subs := map snd (snd m)) in *. pose proof (inb_length Hi) as HL. rewrite !map_length in HL.
      rewrite <- (@places_id sz (map kind out) idx) at 1 by (rewrite map_length; exact HL).
      rewrite (@ein_blocks F sz id_split (splits_id sz) kind subs out) by first [exact Hn|exact Ei|exact HL|rewrite patterns_id; left; reflexivity|unfold subs; rewrite !map_length; reflexivity].
      rewrite patterns_id. set (sl := summed subs out). set (labs := out ++ sl). cbn [map]. rewrite rsum_cons. change (@rsum F []) with (0 : F).
      assert (Hlabs : forall f, In f (snd m) -> incl (snd f) labs).
      { intros f Hf l Hl. unfold labs. apply in_app_iff. destruct (in_dec Nat.eq_dec l out) as [I|I]; [left; exact I|right].
        apply summed_in. split; [|exact I]. apply in_concat. exists (snd f). split; [apply in_map, Hf|exact Hl]. }
      rewrite ein_terms_ok.
      2: exact H0.
      2: unfold labs; rewrite app_length, map_length; lia.
      2: { apply Forall_forall. intros o Ho. rewrite Forall_forall in B. split; [|apply B, Ho].
           assert (Ho' : In (fst o) subs) by (rewrite <- A; apply in_map, Ho).
           apply in_map_iff in Ho' as (f & Ef & Hf). rewrite <- Ef. apply Hlabs, Hf. }
      match goal with |- ?a + 0 = ?b => transitivity a; [ring|] end.
      apply rsum_map_ext. intros u Hu. apply all_idx_in in Hu.
      f_equal. assert (Hii : inb (map sz (map kind labs)) (idx ++ u)) by (unfold labs; rewrite !map_app; apply Forall2_app; assumption).
      assert (Hk : map kind out ++ map kind sl = map kind labs) by (unfold labs; rewrite map_app; reflexivity). rewrite Hk.
      clearbody labs. unfold subs. clear -C Hlabs Hii. induction C as [|f o fs ops [Hfo Hf] C IH]; [reflexivity|].
      cbn [map combine fst snd]. rewrite IH by (intros f' Hf'; apply Hlabs; right; exact Hf'). f_equal.
      assert (Hin : incl (snd f) labs) by (apply Hlabs; left; reflexivity).
      assert (Hlt : forall k, In k (map (posn labs) (snd f)) -> (k < length labs)%nat).
      { intros k Hk. apply in_map_iff in Hk as (l & <- & Hl). apply posn_lt, Hin, Hl. }
      assert (Eg : gather (map kind labs) (map (posn labs) (snd f)) = map kind (snd f)).
      { rewrite <- map_gather by exact Hlt. unfold gather. rewrite !map_map. apply map_ext_in. intros l Hl. rewrite posn_nth by (apply Hin, Hl). reflexivity. }
      rewrite Eg, places_id by (unfold gather; rewrite !map_length; reflexivity). rewrite Hf, Hfo; [reflexivity|].
      rewrite <- Eg, map_gather by (rewrite map_length; exact Hlt). apply gather_inb; [|exact Hii]. rewrite !map_length. exact Hlt.
    Qed.
    Lemma compile_ok out fm : NoDup out -> forall ts idx, compile opd out fm = Some ts -> inb (map sz (map kind out)) idx -> value sz e out fm idx = psem ts idx.
    Proof.
      intros Hn. induction fm as [|m fm IH]; intros ts idx E Hi; cbn in E; [injection E as <-; reflexivity|].
      destruct (compile1 opd out m) as [a|] eqn:E1; [|discriminate]. destruct (compile opd out fm) as [b|]; [|discriminate]. injection E as <-.
      unfold CgPolyProofs.psem. rewrite map_app, rsum_app. unfold value. cbn [map]. rewrite rsum_cons. f_equal; [apply (@compile1_ok out m a idx); assumption|].
      apply IH; [reflexivity|exact Hi].
    Qed.
  End Formula.

  (** Blocks. *)
  Variable syms : pmap (list (list nat * bool)).
  Hypothesis Hsym : forall x l, pget x syms = Some l -> forall axes neg, In (axes, neg) l ->
    (forall i, In i axes -> i < length axes)%nat /\ forall idx, length idx = length axes -> val x (gather idx axes) = rsign neg (val x idx).
  Section BlocksOk.
    Variable opd : ref -> option (list cls * poly).
    Variable e : env F.
    Hypothesis Hopd : forall x cs q, opd x = Some (cs, q) -> forall idx, inb (map sz cs) idx -> tens F (e x) idx = psem q idx.
    Variable T : table.
    Lemma lookup_kind x pat : snd (lookup T x pat) <> [] -> map kind (fst (lookup T x pat)) = pat.
    Proof.
      induction T as [|[y [out fm]] T' IH]; cbn; [intros H; destruct (H eq_refl)|].
      destruct (Pos.eqb x y); [|exact IH]. destruct (list_eq_dec _ _ _); [intros _; assumption|exact IH].
    Qed.
    Lemma tblocks_in x : forall pats b pat, tblocks syms opd T x pats = Some b -> ~ In pat pats -> bget pat b = [].
    Proof.
      induction pats as [|p pats IH]; intros b pat E Hn; cbn [tblocks] in E; [injection E as <-; reflexivity|].
      destruct (tblocks syms opd T x pats) as [r|]; [|discriminate].
      assert (Hr : bget pat r = []) by (apply IH; [reflexivity|intros I; apply Hn; right; exact I]).
      destruct (snd (lookup T x p)) as [|m fm]; [injection E as <-; exact Hr|].
      destruct (nodupb (fst (lookup T x p))); [|discriminate E].  destruct (compile _ _ _); [|discriminate E]. injection E as <-.
      rewrite bget_bcons. destruct (eql pat p) eqn:Ep; [|exact Hr]. apply eql_ok in Ep. subst. destruct Hn. left. reflexivity.
    Qed.
    Lemma tblocks_ok x : forall pats b, NoDup pats -> tblocks syms opd T x pats = Some b -> forall pat idx, In pat pats -> inb (map sz pat) idx ->
      value sz e (fst (lookup T x pat)) (snd (lookup T x pat)) idx = psem (bget pat b) idx.
    Proof.
      induction pats as [|p pats IH]; intros b Hn E pat idx Hp Hi; [destruct Hp|]. cbn [tblocks] in E. inversion Hn as [|? ? N1 N2]; subst.
      destruct (tblocks syms opd T x pats) as [r|] eqn:Er; [|discriminate].
      destruct (snd (lookup T x p)) as [|m fm] eqn:El.
      - injection E as <-. destruct Hp as [<-|Hp]; [|apply IH; auto]. rewrite El. rewrite (@tblocks_in x pats r p Er N1). reflexivity.
      - assert (HK : map kind (fst (lookup T x p)) = p) by (apply lookup_kind; rewrite El; discriminate).
        destruct (nodupb _) eqn:En; [|discriminate]. destruct (compile _ _ _) as [ts|] eqn:Ec; [|discriminate]. injection E as <-.
        rewrite bget_bcons. destruct (eql pat p) eqn:Ep.
        + apply eql_ok in Ep. subst pat. rewrite El. transitivity (psem ts idx).
          * apply (@compile_ok opd e Hopd); [apply nodupb_ok, En|exact Ec|]. rewrite HK. exact Hi.
          * rewrite <- (@norm_ok F H0 sz val syms Hsym (length p)) by (apply inb_length in Hi; rewrite map_length in Hi; congruence).
            destruct (norm syms (length p) ts); [|reflexivity]. rewrite (@tblocks_in x pats r p Er N1). reflexivity.
        + destruct Hp as [<-|Hp]; [rewrite eql_refl in Ep; discriminate|]. apply IH; auto.
    Qed.
  End BlocksOk.

  (** Arguments. *)
  Section Args.
    Variable split : cls -> list cls.
    Hypothesis Hsplit : splits sz split.
    Lemma patterns_nodup cs : NoDup (patterns split cs).
    Proof. apply product_nodup. apply Forall_map, Forall_forall. intros c _. apply Hsplit. Qed.
    Variable opd : ref -> option (list cls * poly).
    Variable T : table.
    Lemma tinputs_in ins : forall l, tinputs syms split opd T ins = Some l ->
      forall x cs d, In (x, (cs, d)) l -> In (x, cs) ins /\ tblocks syms opd T x (patterns split cs) = Some d.
    Proof.
      induction ins as [|[y ds] ins IH]; intros l E x cs d H; cbn [tinputs] in E; [injection E as <-; destruct H|].
      destruct (tblocks syms opd T y (patterns split ds)) as [b|] eqn:Eb; [|discriminate]. destruct (tinputs syms split opd T ins) as [r|]; [|discriminate].
      injection E as <-. destruct H as [H|H].
      - injection H as -> -> ->. split; [left; reflexivity|exact Eb].
      - destruct (IH r eq_refl x cs d H) as [A B]. split; [right; exact A|exact B].
    Qed.
  End Args.

  (** Results. *)
  Lemma find_out_ok G : forall outs (rs : list (arr F)), length rs = length outs ->
    (forall k x cs, nth_error outs k = Some (x, cs) -> exists d, pget x G = Some (cs, d) /\ forall idx, inb (map sz cs) idx -> entry F rs k idx = psem (bget cs d) idx) ->
    forall x cs q, find_out G outs x = Some (cs, q) -> forall idx, inb (map sz cs) idx -> tens F (results F outs rs x) idx = psem q idx.
  Proof.
    induction outs as [|[y ds] outs IH]; intros [|r rs] HL H x cs q E idx Hi; cbn [length] in HL; try discriminate HL; cbn [find_out] in E; try discriminate E.
    cbn [results]. unfold bindv. destruct (Pos.eqb_spec x y) as [->|N].
    - rewrite ?Pos.eqb_refl. destruct (H 0%nat y ds eq_refl) as (d & Ed & Hd). rewrite Ed in E. destruct (eql ds ds); [|discriminate].
      injection E as <- <-. apply (Hd idx Hi).
    - destruct (Pos.eqb_spec y x); [congruence|]. apply (IH rs ltac:(lia)) with (cs := cs); [|exact E|exact Hi]. intros k z es Hk. apply (H (S k) z es Hk).
  Qed.
End Sound.

(** The basis. *)
Section Basis.
  Variable F : fld.
  Add Field FfieldPol5 : (fth F).
  Local Open Scope rng_scope.
  Hypothesis H0 : characteristic_zero F.
  Variable sz : cls -> nat.
  Variable B : list (ref * list cls).
  Variable S : symmetries.
  Variable eB : env F.
  Hypothesis HS : symmetric sz S B eB.
  Hypothesis Hs : syms_ok (kmap B) S = true.
  Hypothesis Hd : pget n_delta (kmap B) = None.

  Definition bval (x : ref) (idx : list nat) : F :=
    if Pos.eqb x n_delta then if (nth 0 idx 0 =? nth 1 idx 0)%nat then 1 else 0
    else match pget x (kmap B) with Some cs => if inbb (map sz cs) idx then tens F (eB x) idx else 0 | None => 0 end.

  Lemma kmap_in x cs : pget x (kmap B) = Some cs -> In (x, cs) B.
  Proof.
    clear. induction B as [|[y ds] B' IH]; cbn [kmap]; intros H; [destruct x; discriminate|].
    rewrite pget_set in H. destruct (Pos.eqb_spec x y) as [->|N]; [injection H as ->; left; reflexivity|right; apply IH, H].
  Qed.
  Lemma smap_in x l : pget x (smap S) = Some l -> In (x, l) S \/ (x = n_delta /\ l = [([1; 0]%nat, false)]).
  Proof.
    clear. induction S as [|[y m] S' IH]; cbn [smap]; intros H; rewrite pget_set in H.
    - destruct (Pos.eqb_spec x n_delta) as [->|N]; [injection H as <-; right; split; reflexivity|destruct x; discriminate].
    - destruct (Pos.eqb_spec x y) as [->|N]; [injection H as ->; left; left; reflexivity|]. destruct (IH H); [left; right; assumption|right; assumption].
  Qed.
  Lemma bval_sym x l : pget x (smap S) = Some l -> forall axes neg, In (axes, neg) l ->
    (forall i, In i axes -> i < length axes)%nat /\ forall idx, length idx = length axes -> bval x (gather idx axes) = rsign neg (bval x idx).
  Proof.
    intros Hx axes neg Hl. destruct (smap_in _ Hx) as [I|[-> ->]].
    - unfold syms_ok in Hs. rewrite forallb_forall in Hs. specialize (Hs _ I). cbn [fst snd] in Hs. apply andb_prop in Hs as [E1 E2].
      unfold bval. destruct (Pos.eqb x n_delta); [discriminate|]. destruct (pget x (kmap B)) as [cs|] eqn:Ec; [|discriminate].
      rewrite forallb_forall in E2. specialize (E2 _ Hl). cbn [fst snd] in E2. apply andb_prop in E2 as [E2 E3]. apply is_perm_iff in E2. apply eql_ok in E3.
      assert (La : length axes = length cs) by (apply perm_seq_length in E2; exact E2).
      split.
      + intros i Hi. rewrite La. apply (@perm_seq_lt _ _ i E2), Hi.
      + intros idx Hi. rewrite La in Hi.
        assert (Hg : gather (map sz cs) axes = map sz cs).
        { rewrite <- map_gather; [f_equal; exact E3|]. intros i Ii. apply (@perm_seq_lt _ _ i E2), Ii. }
        assert (Hiff : inb (map sz cs) (gather idx axes) <-> inb (map sz cs) idx).
        { apply inb_gather_iff; [rewrite map_length; exact E2|exact Hg|rewrite map_length; exact Hi]. }
        destruct (inbb (map sz cs) idx) eqn:Eb.
        * apply inbb_iff in Eb. rewrite (proj2 (inbb_iff _ _) (proj2 Hiff Eb)). apply (@HS x cs l axes neg (kmap_in _ Ec) I Hl idx Eb).
        * destruct (inbb (map sz cs) (gather idx axes)) eqn:Eb2; [apply inbb_iff, Hiff, inbb_iff in Eb2; congruence|]. symmetry. apply rsign_0.
    - destruct Hl as [Hl|[]]. injection Hl as <- <-. split; [intros i [<-|[<-|[]]]; cbn; lia|].
      intros idx _. unfold bval. cbn [gather map nth rsign]. rewrite Nat.eqb_sym. reflexivity.
  Qed.
  Lemma bval_delta i j : bval n_delta [i; j] = if (i =? j)%nat then 1 else 0.
  Proof. reflexivity. Qed.
  Lemma atom_ok x cs q : atom (kmap B) x = Some (cs, q) -> forall idx, inb (map sz cs) idx -> tens F (eB x) idx = psem F sz bval q idx.
  Proof.
    unfold atom. destruct (pget x (kmap B)) as [ds|] eqn:E; [|discriminate]. intros H idx Hi. injection H as -> <-.
    unfold psem, tsem. cbn [map td tq tf all_idx]. cbn. rewrite q2F_1 by exact H0.
    rewrite app_nil_r. pose proof (inb_length Hi) as HL. rewrite map_length in HL.
    assert (Eg : map (fun i => nth i idx 0%nat) (seq 0 (length cs)) = idx) by (rewrite <- HL; apply map_nth_seq).
    unfold fsem. cbn [fst snd]. unfold gather. rewrite Eg. unfold bval. destruct (Pos.eqb_spec x n_delta) as [->|N]; [congruence|]. rewrite E, (proj2 (inbb_iff _ _) Hi). ring.
  Qed.

  (** A run with arguments given by formulas. *)
  Lemma poly_run p T split ins G method path (e : env F) : splits sz split -> path_ok path ->
    tinputs (smap S) split (atom (kmap B)) T (p_in p) = Some ins ->
    check (poly_ops (smap S) split) (init (poly_ops (smap S) split) ins PL) (p_body p) = Some G ->
    check_outs (poly_ops (smap S) split) (fun _ _ => true) G (p_out p) = true ->
    args_ok sz (p_in p) e -> (forall x cs, In (x, cs) (p_in p) -> given_by sz split T eB x cs (tens F (e x))) ->
    exists rs, run method path sz p e = Ok rs /\ length rs = length (p_out p) /\
      forall k x cs, nth_error (p_out p) k = Some (x, cs) ->
        exists d, pget x G = Some (cs, d) /\
          forall pat idx, In pat (patterns split cs) -> inb (map sz pat) idx -> entry F rs k (places sz split cs pat idx) = psem F sz bval (bget pat d) idx.
  Proof.
    intros Hsp Hp Ei Ec Eo Ha Hg.
    destruct (@run_ok F unit (fun _ => sz) (poly_ops (smap S) split) (@poly_dom F H0 sz bval split Hsp (smap S) bval_sym bval_delta)
                (fun _ => method) (fun _ => path) (fun _ => Hp) p ins (fun _ _ => true) G (fun _ => e)) as (rs & A & R).
    - intros x cs d Hx. destruct (@tinputs_in (smap S) split (atom (kmap B)) T _ _ Ei x cs d Hx) as [I Eb]. split; [intros _; apply (Ha _ _ I)|].
      rewrite poly_dom_R. intros pat idx Hpat Hi. rewrite (Hg x cs I pat idx Hpat Hi).
      apply (@tblocks_ok F H0 sz bval (smap S) bval_sym (atom (kmap B)) eB atom_ok T x (patterns split cs) d (patterns_nodup Hsp cs) Eb pat idx Hpat Hi).
    - exact Ec.
    - exact Eo.
    - exists (rs tt). destruct (A tt) as [A1 A2]. split; [exact A1|]. split; [exact A2|].
      intros k x cs Hk. destruct (R k x cs Hk) as [_ (d & [Ed _] & Rd)]. exists d. split; [exact Ed|]. rewrite poly_dom_R in Rd. exact Rd.
  Qed.
End Basis.

Theorem compare_sound B S Tp p split Tq q Tout : compare B S Tp p split Tq q Tout = true ->
  forall (F : fld) sz, characteristic_zero F -> splits sz split ->
  forall method1 method2 path1 path2, path_ok path1 -> path_ok path2 ->
  forall eB e1 e2 : env F, symmetric sz S B eB ->
  args_ok sz (p_in p) e1 -> (forall x cs, In (x, cs) (p_in p) -> given_by sz id_split Tp eB x cs (tens F (e1 x))) ->
  args_ok sz (p_in q) e2 -> (forall x cs, In (x, cs) (p_in q) -> given_by sz split Tq eB x cs (tens F (e2 x))) ->
  exists r1 r2, run method1 path1 sz p e1 = Ok r1 /\ run method2 path2 sz q e2 = Ok r2 /\
    forall k x cs, nth_error (p_out q) k = Some (x, cs) -> given_by sz split Tout (results F (p_out p) r1) x cs (entry F r2 k).
Proof.
  intros H F sz H0 Hsp m1 m2 p1 p2 P1 P2 eB e1 e2 HS A1 G1 A2 G2. unfold compare in H.
  apply andb_prop in H as [H H2]. apply andb_prop in H as [Hs Hd].
  assert (Hdel : pget n_delta (kmap B) = None) by (destruct (pget n_delta (kmap B)); [discriminate|reflexivity]).
  destruct (tinputs _ id_split _ _ _) as [ip|] eqn:Eip; [|discriminate]. destruct (tinputs _ split _ _ _) as [iq|] eqn:Eiq; [|discriminate].
  destruct (check _ _ (p_body p)) as [Gp|] eqn:Ep; [|discriminate]. destruct (check _ _ (p_body q)) as [Gq|] eqn:Eq; [|discriminate].
  apply andb_prop in H2 as [Eop Eoq].
  destruct (@poly_run F H0 sz B S eB HS Hs Hdel p Tp id_split ip Gp m1 p1 e1 (splits_id sz) P1 Eip Ep Eop A1 G1) as (r1 & R1 & L1 & V1).
  assert (Eoq' : check_outs (poly_ops (smap S) split) (fun _ _ => true) Gq (p_out q) = true).
  { unfold check_outs. rewrite forallb_forall in *. intros o Ho. specialize (Eoq o Ho).
    destruct (pget (fst o) Gq) as [[cs d]|]; [|discriminate]. apply andb_prop in Eoq as [-> _]. reflexivity. }
  destruct (@poly_run F H0 sz B S eB HS Hs Hdel q Tq split iq Gq m2 p2 e2 Hsp P2 Eiq Eq Eoq' A2 G2) as (r2 & R2 & L2 & V2).
  exists r1, r2. split; [exact R1|]. split; [exact R2|]. intros k x cs Hk pat idx Hpat Hi.
  destruct (V2 k x cs Hk) as (d & Ed & Vd). rewrite (Vd pat idx Hpat Hi).
  rewrite forallb_forall in Eoq. specialize (Eoq (x, cs) (nth_error_In _ _ Hk)). cbn [fst snd] in Eoq. rewrite Ed in Eoq.
  apply andb_prop in Eoq as [_ Er]. unfold result_ok in Er. destruct (tblocks _ _ _ _ _) as [b|] eqn:Eb; [|discriminate].
  rewrite forallb_forall in Er. specialize (Er pat Hpat). rewrite (@same_ok F H0 sz (bval sz B eB) _ _ idx Er). symmetry.
  refine (@tblocks_ok F H0 sz (bval sz B eB) (smap S) (@bval_sym F sz B S eB HS Hs) (find_out Gp (p_out p)) (results F (p_out p) r1) _ Tout x (patterns split cs) b (patterns_nodup Hsp cs) Eb pat idx Hpat Hi).
  apply find_out_ok; [exact L1|]. intros k' y ds Hk'. destruct (V1 k' y ds Hk') as (d' & Ed' & Vd'). exists d'. split; [exact Ed'|].
  intros idx' Hi'. rewrite <- (Vd' ds idx'); [|rewrite patterns_id; left; reflexivity|exact Hi'].
  rewrite places_id; [reflexivity|]. apply inb_length in Hi'. rewrite map_length in Hi'. exact Hi'.
Qed.

Theorem computes_sound B S split T p Tout : computes B S split T p Tout = true ->
  forall (F : fld) sz, characteristic_zero F -> splits sz split ->
  forall method path, path_ok path ->
  forall eB e : env F, symmetric sz S B eB ->
  args_ok sz (p_in p) e -> (forall x cs, In (x, cs) (p_in p) -> given_by sz split T eB x cs (tens F (e x))) ->
  exists r, run method path sz p e = Ok r /\
    forall k x cs, nth_error (p_out p) k = Some (x, cs) -> given_by sz split Tout eB x cs (entry F r k).
Proof.
  intros H F sz H0 Hsp m p1 P1 eB e1 HS A1 G1. unfold computes in H.
  apply andb_prop in H as [H H2]. apply andb_prop in H as [Hs Hd].
  assert (Hdel : pget n_delta (kmap B) = None) by (destruct (pget n_delta (kmap B)); [discriminate|reflexivity]).
  destruct (tinputs _ split _ _ _) as [ip|] eqn:Eip; [|discriminate].
  destruct (check _ _ (p_body p)) as [Gp|] eqn:Ep; [|discriminate].
  assert (Eo : check_outs (poly_ops (smap S) split) (fun _ _ => true) Gp (p_out p) = true).
  { unfold check_outs. rewrite forallb_forall in *. intros o Ho. specialize (H2 o Ho).
    destruct (pget (fst o) Gp) as [[cs d]|]; [|discriminate]. apply andb_prop in H2 as [-> _]. reflexivity. }
  destruct (@poly_run F H0 sz B S eB HS Hs Hdel p T split ip Gp m p1 e1 Hsp P1 Eip Ep Eo A1 G1) as (r & R1 & L1 & V1).
  exists r. split; [exact R1|]. intros k x cs Hk pat idx Hpat Hi.
  destruct (V1 k x cs Hk) as (d & Ed & Vd). rewrite (Vd pat idx Hpat Hi).
  rewrite forallb_forall in H2. specialize (H2 (x, cs) (nth_error_In _ _ Hk)). cbn [fst snd] in H2. rewrite Ed in H2.
  apply andb_prop in H2 as [_ Er]. unfold result_ok in Er. destruct (tblocks _ _ _ _ _) as [b|] eqn:Eb; [|discriminate].
  rewrite forallb_forall in Er. specialize (Er pat Hpat). rewrite (@same_ok F H0 sz (bval sz B eB) _ _ idx Er). symmetry.
  exact (@tblocks_ok F H0 sz (bval sz B eB) (smap S) (@bval_sym F sz B S eB HS Hs) (atom (kmap B)) eB (@atom_ok F H0 sz B eB Hdel) Tout x (patterns split cs) b (patterns_nodup Hsp cs) Eb pat idx Hpat Hi).
Qed.
