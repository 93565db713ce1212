(** Arguments built from converted amplitudes exist. *)
From Coq Require Import String Permutation List Lia.
From Verif Require Import Base Alg ArrModel ArrProofs PermModel TensorModel AnsatzModel ConvModel ConvSpec ConvNames ConvRes ConvGen ConvTotal ConvAgree
  EinsumModel EinPathSpec CgModel CgSpec CgFormSpec CgPolyDom CgCompare CgCompareProofs CgBuild CgNames CgTables CgPairs CgAgree CgOrderSpec CgOrder.
Import ListNotations.
Set Implicit Arguments.
Local Open Scope list_scope.
Local Open Scope nat_scope.

Section At.
  Variable F : fld.
  Variable sz : cls -> nat.
  Variable split : cls -> list cls.
  Variable pos : cls -> cls -> nat -> nat.
  Hypothesis Hpos : positions sz split pos.

  Definition cells (c : cls) : list (cls * nat) := flat_map (fun b => map (pair b) (seq 0 (sz b))) (split c).
  Definition cell (c : cls) (j : nat) : cls * nat := match find (fun p => pos c (fst p) (snd p) =? j) (cells c) with Some p => p | None => (0, 0) end.
  Lemma find_key {A} (f : A -> nat) p : forall l, NoDup (map f l) -> In p l -> find (fun q => f q =? f p) l = Some p.
  Proof.
    induction l as [|q l IH]; cbn [map find]; intros Hn Hp; [destruct Hp|]. inversion Hn as [|? ? N1 N2]; subst. destruct Hp as [->|Hp]; [rewrite Nat.eqb_refl; reflexivity|].
    destruct (Nat.eqb_spec (f q) (f p)) as [E|_]; [destruct N1; rewrite E; apply in_map; exact Hp|]. apply IH; assumption.
  Qed.
  Lemma cell_ok c b i : In b (split c) -> i < sz b -> cell c (pos c b i) = (b, i).
  Proof.
    intros Hb Hi. unfold cell. rewrite (@find_key _ (fun p => pos c (fst p) (snd p)) (b, i)); [reflexivity| |].
    - eapply Permutation_NoDup; [apply Permutation_sym|apply (seq_NoDup (sz c) 0)].
      replace (map _ (cells c)) with (flat_map (fun b => map (pos c b) (seq 0 (sz b))) (split c)); [exact (Hpos c)|].
      unfold cells. clear. induction (split c) as [|d l IH]; [reflexivity|]. cbn [flat_map]. rewrite map_app, map_map, IH. reflexivity.
    - apply in_flat_map. exists b. split; [exact Hb|]. apply in_map, in_seq. lia.
  Qed.
  Lemma pos_lt c b i : In b (split c) -> i < sz b -> pos c b i < sz c.
  Proof.
    intros Hb Hi. assert (I : In (pos c b i) (seq 0 (sz c))); [|apply in_seq in I; lia].
    apply (Permutation_in _ (Hpos c)). apply in_flat_map. exists b. split; [exact Hb|]. apply in_map, in_seq. lia.
  Qed.
  Definition cell_all (cs idx : list nat) : list nat * list nat :=
    let l := map (fun p => cell (fst p) (snd p)) (combine cs idx) in (map fst l, map snd l).
  Lemma cell_all_ok cs : forall pat idx, In pat (patterns split cs) -> inb (map sz pat) idx ->
    cell_all cs (located pos cs pat idx) = (pat, idx) /\ inb (map sz cs) (located pos cs pat idx).
  Proof.
    intros pat idx Hp. apply patterns_in in Hp. revert idx. induction Hp as [|b c pat cs Hb Hp IH]; intros idx Hi; inversion Hi as [|i ? idx' ? Hlt Hi']; subst; [split; [reflexivity|constructor]|].
    destruct (IH idx' Hi') as (I & I'). unfold cell_all, located in *. cbn [combine map fst snd]. rewrite cell_ok by assumption. cbn [fst snd]. injection I as I1 I2. rewrite I1, I2.
    split; [reflexivity|]. constructor; [apply pos_lt; assumption|exact I'].
  Qed.
  Definition built_at (T : table) (eB : env F) (x : ref) (cs : list cls) : arr F :=
    tab (map sz cs) (fun idx => let (pat, i) := cell_all cs idx in value sz eB (fst (lookup T x pat)) (snd (lookup T x pat)) i).
  Lemma built_at_ok T eB x cs : of_kinds F sz cs (built_at T eB x cs) /\ given_at sz split pos T eB x cs (tens F (Some (built_at T eB x cs))).
  Proof.
    split; [split; [apply tab_wf|reflexivity]|]. intros pat idx Hp Hi. destruct (@cell_all_ok cs pat idx Hp Hi) as (E & I). unfold tens, built_at. rewrite aget_tab by exact I. rewrite E. reflexivity.
  Qed.
End At.

(** The kinds of an argument *)
Definition arg_kinds (x : ref) (ins : list (ref * list cls)) : list cls := match find (fun r => Pos.eqb (fst r) x) ins with Some r => snd r | None => [] end.
Lemma arg_kinds_ok ins x cs : NoDup (map fst ins) -> In (x, cs) ins -> arg_kinds x ins = cs.
Proof.
  unfold arg_kinds. induction ins as [|[y ds] ins IH]; cbn [map find fst]; intros Hn Hi; [destruct Hi|]. inversion Hn as [|? ? N1 N2]; subst.
  destruct Hi as [Hi|Hi]; [injection Hi as -> ->; rewrite Pos.eqb_refl; reflexivity|]. destruct (Pos.eqb_spec y x) as [->|_]; [destruct N1; apply (in_map fst) in Hi; exact Hi|]. apply IH; assumption.
Qed.

(** Which amplitude an argument is *)
Definition block_of (x : ref) : option (bool * (string * option string)) :=
  match find (fun r => Pos.eqb (fst r) x) (block_names true) with
  | Some r => Some (true, snd r)
  | None => match find (fun r => Pos.eqb (fst r) x) (block_names false) with Some r => Some (false, snd r) | None => None end
  end.
Definition plain_of (x : ref) : option (bool * string) :=
  match find (fun r => Pos.eqb (fst r) x) (plain_names true) with
  | Some r => Some (true, snd r)
  | None => match find (fun r => Pos.eqb (fst r) x) (plain_names false) with Some r => Some (false, snd r) | None => None end
  end.
Lemma block_of_in lams x nm : In (x, nm) (block_names lams) -> block_of x = Some (lams, nm).
Proof. destruct lams; cbn [block_names In]; intros H; repeat (destruct H as [H|H]; [injection H as <- <-; reflexivity|]); destruct H. Qed.
Lemma plain_of_in lams x nm : In (x, nm) (plain_names lams) -> plain_of x = Some (lams, nm).
Proof. destruct lams; cbn [plain_names In]; intros H; repeat (destruct H as [H|H]; [injection H as <- <-; reflexivity|]); destruct H. Qed.
Lemma block_of_none x : (forall lams nm, ~ In (x, nm) (block_names lams)) -> block_of x = None.
Proof.
  intros H. unfold block_of. destruct (find (fun r => Pos.eqb (fst r) x) (block_names true)) as [[y nm]|] eqn:E; [apply find_some in E as (I & E); apply Pos.eqb_eq in E; cbn in E; subst; destruct (H true nm I)|].
  destruct (find (fun r => Pos.eqb (fst r) x) (block_names false)) as [[y nm]|] eqn:E'; [apply find_some in E' as (I & E'); apply Pos.eqb_eq in E'; cbn in E'; subst; destruct (H false nm I)|]. reflexivity.
Qed.
Lemma plain_of_none x : (forall lams nm, ~ In (x, nm) (plain_names lams)) -> plain_of x = None.
Proof.
  intros H. unfold plain_of. destruct (find (fun r => Pos.eqb (fst r) x) (plain_names true)) as [[y nm]|] eqn:E; [apply find_some in E as (I & E); apply Pos.eqb_eq in E; cbn in E; subst; destruct (H true nm I)|].
  destruct (find (fun r => Pos.eqb (fst r) x) (plain_names false)) as [[y nm]|] eqn:E'; [apply find_some in E' as (I & E'); apply Pos.eqb_eq in E'; cbn in E'; subst; destruct (H false nm I)|]. reflexivity.
Qed.

Lemma pair_nodup name p q : In (name, (p, q)) (restricted_unrestricted ++ restricted_unrestricted_rounded ++ unrestricted_general ++ unrestricted_general_rounded) -> NoDup (map fst (p_in q)).
Proof. intros H. pose proof pairs_ok as A. rewrite forallb_forall in A. specialize (A _ H). unfold pair_ok in A. cbn [fst snd] in A. apply andb_prop in A as [_ A]. apply nodup_names_ok. exact A. Qed.

Lemma from_rebcc_exists name p q : In (name, (p, q)) restricted_unrestricted ->
  forall (F : fld) sz, characteristic_zero F -> splits sz closed_split ->
  forall a amps (eB : env F), singles_doubles a -> symmetric sz spatial_symmetries spatial eB -> restricted_amplitudes sz amps eB ->
  (forall lams x nm, In (x, nm) (plain_names lams) -> exists tn, eB x = Some tn) ->
  (forall lams x cs nm comb, In (x, cs) (p_in q) -> In (x, (nm, comb)) (block_names lams) -> In (str nm) (amplitude_names lams a)) ->
  exists u (e1 e2 : env F), (forall lams, from_rebcc F lams a (amps lams) = Ok (u lams)) /\
    args_ok sz (p_in p) e1 /\ (forall x cs, In (x, cs) (p_in p) -> given_by sz id_split restricted eB x cs (tens F (e1 x))) /\
    args_ok sz (p_in q) e2 /\ unrestricted_arguments sz eB u (p_in q) e2.
Proof.
  intros Hin F sz H0 Hs a amps eB Ha HS HB Hall Hcov.
  destruct (@from_rebcc_total F H0 sz true a amps eB Ha HB (Hall true)) as (ut & Et & Kt).
  destruct (@from_rebcc_total F H0 sz false a amps eB Ha HB (Hall false)) as (uf & Ef & Kf).
  pose (u := fun lams : bool => if lams then ut else uf).
  assert (Hu : forall lams, from_rebcc F lams a (amps lams) = Ok (u lams)) by (intros []; assumption).
  assert (Ku : forall lams, map fst (u lams) = amplitude_names lams a) by (intros []; assumption).
  assert (Hin' : In (name, (p, q)) (restricted_unrestricted ++ restricted_unrestricted_rounded)) by (apply in_or_app; left; exact Hin).
  destruct (@closed_shell_arguments name p q Hin' F sz eB Hs) as (e1 & e2' & A1 & G1 & A2 & G2).
  pose (e2 := fun x => match block_of x with Some (lams, (nm, comb)) => amplitude (u lams) nm comb | None => e2' x end).
  exists u, e1, e2. split; [exact Hu|]. split; [exact A1|]. split; [exact G1|]. split.
  - intros x cs Hx. destruct (in_block_names x) as [(lams & [nm comb] & Hn)|Hn].
    + destruct (@from_rebcc_block F H0 sz Hs lams a amps eB (u lams) x nm comb Ha HB (Hu lams) (Ku lams) Hn (Hcov _ _ _ _ _ Hx Hn)) as (v & cs' & Ev & Ec & K).
      exists v. unfold e2. rewrite (@block_of_in _ _ _ Hn). split; [exact Ev|].
      pose proof all_block_kinds as K'. rewrite forallb_forall in K'. specialize (K' _ Hin'). rewrite (@block_kinds_ok _ _ _ _ _ K' Hx Hn) in Ec. injection Ec as <-. exact K.
    + unfold e2. rewrite (@block_of_none _ Hn). exact (A2 x cs Hx).
  - intros x cs Hx. split.
    + intros lams nm comb Hn. unfold e2. rewrite (@block_of_in _ _ _ Hn). reflexivity.
    + intros Hn. unfold e2. rewrite (@block_of_none _ Hn). exact (G2 x cs Hx).
Qed.

Lemma from_uebcc_exists name p q : In (name, (p, q)) unrestricted_general ->
  forall (F : fld) sz, characteristic_zero F -> splits sz spin_split ->
  forall slices size, spin_slices sz slices size ->
  forall a amps (eB : env F), singles_doubles a -> symmetric sz spin_blocks_symmetries spin_blocks eB -> unrestricted_amplitudes sz amps eB ->
  (forall lams x nm, In (x, nm) (block_names lams) -> exists tn, eB x = Some tn) ->
  (forall lams x cs nm, In (x, cs) (p_in q) -> In (x, nm) (plain_names lams) -> In (str nm) (amplitude_names lams a)) ->
  exists g (e1 e2 : env F), (forall lams, @from_uebcc F slices size (sz 3) lams a (amps lams) = Ok (g lams)) /\
    args_ok sz (p_in p) e1 /\ (forall x cs, In (x, cs) (p_in p) -> given_by sz id_split unrestricted eB x cs (tens F (e1 x))) /\
    args_ok sz (p_in q) e2 /\ general_arguments sz slices eB g (p_in q) e2.
Proof.
  intros Hin F sz H0 Hs slices size Hsl a amps eB Ha HS HB Hall Hcov.
  destruct (@from_uebcc_total F sz slices size Hsl true a amps eB Ha HB (Hall true)) as (gt & Et & Kt & Wt_).
  destruct (@from_uebcc_total F sz slices size Hsl false a amps eB Ha HB (Hall false)) as (gf & Ef & Kf & Wf_).
  pose (g := fun lams : bool => if lams then gt else gf).
  assert (Hg : forall lams, @from_uebcc F slices size (sz 3) lams a (amps lams) = Ok (g lams)) by (intros []; assumption).
  assert (Kg : forall lams, map fst (g lams) = amplitude_names lams a) by (intros []; assumption).
  assert (Wg : forall lams x nm w, In (x, nm) (plain_names lams) -> dget pystr_eq_dec (str nm) (g lams) = Some w -> exists cs, general_kinds x = Some cs /\ of_kinds F sz cs w) by (intros []; assumption).
  assert (Hin' : In (name, (p, q)) (unrestricted_general ++ unrestricted_general_rounded)) by (apply in_or_app; left; exact Hin).
  assert (Hn : NoDup (map fst (p_in q))) by (apply (@pair_nodup name p q); rewrite !in_app_iff; tauto).
  destruct (@spin_orbital_arguments name p q Hin' F sz eB Hs) as (e1 & _ & A1 & G1 & _ & _).
  pose proof (spin_positions_ok Hs Hsl) as Hpos.
  pose (e2 := fun x => match plain_of x with Some (lams, nm) => dget pystr_eq_dec (str nm) (g lams) | None => Some (@built_at F sz spin_split (spin_positions slices) spin_orbital eB x (arg_kinds x (p_in q))) end).
  exists g, e1, e2. split; [exact Hg|]. split; [exact A1|]. split; [exact G1|]. split.
  - intros x cs Hx. destruct (in_plain_names x) as [(lams & nm & Hp)|Hp].
    + destruct (@dget_key_some _ (str nm) (g lams)) as (w & Dw); [rewrite Kg; exact (Hcov _ _ _ _ Hx Hp)|].
      exists w. unfold e2. rewrite (@plain_of_in _ _ _ Hp). split; [exact Dw|]. destruct (Wg _ _ _ _ Hp Dw) as (cs' & Ec & K).
      pose proof all_plain_kinds as K'. rewrite forallb_forall in K'. specialize (K' _ Hin). rewrite (@plain_kinds_ok _ _ _ _ _ K' Hx Hp) in Ec. injection Ec as <-. exact K.
    + unfold e2. rewrite (@plain_of_none _ Hp), (@arg_kinds_ok _ _ _ Hn Hx). eexists. split; [reflexivity|]. apply (@built_at_ok F _ _ _ Hpos).
  - intros x cs Hx. split.
    + intros lams nm Hp. unfold e2. rewrite (@plain_of_in _ _ _ Hp). reflexivity.
    + intros Hp. unfold e2. rewrite (@plain_of_none _ Hp), (@arg_kinds_ok _ _ _ Hn Hx). apply (@built_at_ok F _ _ _ Hpos).
Qed.
