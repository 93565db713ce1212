(** Arguments given by a table exist for all values of the basis tensors. *)
From Coq Require Import ZArith Lia.
From Verif Require Import Base Alg ArrModel ListAux EinsumModel TensorModel CgModel CgSpec CgFormSpec CgProofs CgPolyDom CgCompare CgCompareProofs.
From Verif Require Import ArrProofs.
Set Implicit Arguments.
Local Open Scope nat_scope.

Section Build.
  Variable F : fld.
  Variable sz : cls -> nat.
  Variable split : cls -> list cls.
  Hypothesis Hsplit : splits sz split.

  Fixpoint locate1 (bs : list cls) (i : nat) : cls * nat :=
    match bs with [] => (0, i) | b :: bs' => if i <? sz b then (b, i) else locate1 bs' (i - sz b) end.
  Definition locate (cs idx : list nat) : list nat * list nat :=
    let l := map (fun p => locate1 (split (fst p)) (snd p)) (combine cs idx) in (map fst l, map snd l).
  Lemma locate1_ok b i : forall bs, In b bs -> i < sz b -> locate1 bs (offset sz bs b + i) = (b, i).
  Proof.
    induction bs as [|b' bs IH]; intros Hb Hi; [destruct Hb|]. cbn [offset locate1]. destruct (Nat.eqb_spec b b') as [->|N].
    - rewrite Nat.add_0_l, (proj2 (Nat.ltb_lt _ _) Hi). reflexivity.
    - destruct Hb as [Hb|Hb]; [congruence|]. destruct (Nat.ltb_spec (sz b' + offset sz bs b + i) (sz b')) as [L|L]; [lia|].
      replace (sz b' + offset sz bs b + i - sz b') with (offset sz bs b + i) by lia. apply IH; assumption.
  Qed.
  Lemma locate_ok cs : forall pat idx, In pat (patterns split cs) -> inb (map sz pat) idx -> locate cs (places sz split cs pat idx) = (pat, idx).
  Proof.
    intros pat idx Hp. apply patterns_in in Hp. revert idx. induction Hp as [|b c pat cs Hb Hp IH]; intros idx Hi; inversion Hi as [|i ? idx' ? Hlt Hi']; subst; [reflexivity|].
    specialize (IH idx' Hi'). unfold locate in *. cbn [combine places map fst snd]. unfold places in *. cbn [map combine fst snd].
    rewrite locate1_ok by assumption. cbn [fst snd]. injection IH as I1 I2. rewrite I1, I2. reflexivity.
  Qed.

  Variable T : table.
  Variable eB : env F.
  Definition built (x : ref) (cs : list cls) : arr F :=
    tab (map sz cs) (fun idx => let (pat, i) := locate cs idx in value sz eB (fst (lookup T x pat)) (snd (lookup T x pat)) i).
  Fixpoint build (ins : list (ref * list cls)) : env F :=
    match ins with [] => fun _ => None | (x, cs) :: ins' => bindv (build ins') x (Some (built x cs)) end.
  Lemma build_in ins x cs : NoDup (map fst ins) -> In (x, cs) ins -> build ins x = Some (built x cs).
  Proof.
    induction ins as [|[y ds] ins IH]; cbn [map build]; intros Hn Hi; [destruct Hi|]. inversion Hn as [|? ? N1 N2]; subst. unfold bindv.
    destruct Hi as [Hi|Hi]; [injection Hi as -> ->; rewrite Pos.eqb_refl; reflexivity|].
    destruct (Pos.eqb_spec x y) as [->|N]; [destruct N1; apply (in_map fst) in Hi; exact Hi|].
    apply IH; assumption.
  Qed.
  Lemma build_args ins : NoDup (map fst ins) -> args_ok sz ins (build ins).
  Proof. intros Hn x cs Hi. exists (built x cs). split; [apply build_in; assumption|]. split; [apply tab_wf|reflexivity]. Qed.
  Lemma build_given ins : NoDup (map fst ins) -> forall x cs, In (x, cs) ins -> given_by sz split T eB x cs (tens F (build ins x)).
  Proof.
    intros Hn x cs Hi pat idx Hp Hx. rewrite (@build_in ins x cs Hn Hi). unfold tens, built.
    rewrite aget_tab by (apply places_inb; assumption). rewrite locate_ok by assumption. reflexivity.
  Qed.
End Build.

Fixpoint nodup_names (l : list ref) : bool :=
  match l with [] => true | x :: l' => negb (existsb (Pos.eqb x) l') && nodup_names l' end.
Lemma nodup_names_ok l : nodup_names l = true -> NoDup l.
Proof.
  induction l as [|x l IH]; cbn; intros H; constructor; apply andb_prop in H as [H1 H2]; [|apply IH, H2].
  intros I. apply negb_true_iff in H1. assert (existsb (Pos.eqb x) l = true) by (apply existsb_exists; exists x; split; [exact I|apply Pos.eqb_refl]). congruence.
Qed.
