(** Reasoning about all runs of a generated function at once: a checker computes, for every name, the
    kinds of its axes and some information about its value ("abstract interpretation"); the information
    may relate the values in several runs of the function. *)
From Verif Require Import Base Alg ArrModel ListAux TensorModel EinsumModel EinsumSpec EinPathModel EinPathSpec CgModel CgSpec.
From Verif Require Import KernelProofs ArrProofs SymmProofs EinsumProofs EinsumThms EinPathThms EinPathParse.
From Coq Require Import ZArith Ring Field Lia.
Set Implicit Arguments.
Local Open Scope py_scope.

(** Finite maps keyed by names. *)
Inductive pmap (X : Type) := PL | PN (l : pmap X) (v : option X) (r : pmap X).
Arguments PL {X}.
Fixpoint pget {X} (k : positive) (m : pmap X) : option X :=
  match m with
  | PL => None
  | PN l v r => match k with xH => v | xO k' => pget k' l | xI k' => pget k' r end
  end.
Fixpoint pset {X} (k : positive) (v : option X) (m : pmap X) : pmap X :=
  match k, m with
  | xH, PL => PN PL v PL
  | xH, PN l _ r => PN l v r
  | xO k', PL => PN (pset k' v PL) None PL
  | xO k', PN l w r => PN (pset k' v l) w r
  | xI k', PL => PN PL None (pset k' v PL)
  | xI k', PN l w r => PN l w (pset k' v r)
  end.
Lemma pget_L {X} k : pget k (@PL X) = None.
Proof. destruct k; reflexivity. Qed.
Lemma pget_set {X} (v : option X) : forall k k' m, pget k' (pset k v m) = if Pos.eqb k' k then v else pget k' m.
Proof.
  induction k as [k IH|k IH|]; intros [k'|k'|] [|l w r]; cbn; rewrite ?IH, ?pget_L; try reflexivity;
    destruct (Pos.eqb k' k); reflexivity.
Qed.

(** Booleans on lists of small numbers. *)
Fixpoint eql (a b : list nat) : bool :=
  match a, b with [], [] => true | x :: a', y :: b' => (x =? y) && eql a' b' | _, _ => false end.
Lemma eql_ok a b : eql a b = true -> a = b.
Proof.
  revert b; induction a as [|x a IH]; intros [|y b]; cbn; try discriminate; [reflexivity|].
  intros H. apply andb_prop in H as [H1 H2]. apply Nat.eqb_eq in H1. rewrite H1, (IH b H2). reflexivity.
Qed.
Fixpoint nodupb (l : list nat) : bool := match l with [] => true | x :: l' => negb (memb x l') && nodupb l' end.
Lemma nodupb_ok l : nodupb l = true -> NoDup l.
Proof.
  induction l as [|x l IH]; cbn; [constructor|]. intros H. apply andb_prop in H as [H1 H2].
  constructor; [|apply IH, H2]. intros Hx. apply memb_in in Hx. rewrite Hx in H1. discriminate.
Qed.
Definition inclb (a b : list nat) : bool := forallb (fun x => memb x b) a.
Lemma inclb_ok a b : inclb a b = true -> incl a b.
Proof. unfold inclb. rewrite forallb_forall. intros H x Hx. apply memb_in, H, Hx. Qed.
Definition smallb (l : list nat) : bool := forallb (fun x => x <? 52) l.
Lemma smallb_ok l : smallb l = true -> small l.
Proof. unfold smallb. rewrite forallb_forall. intros H x Hx. apply Nat.ltb_lt, H, Hx. Qed.

(** Kinds of labels. *)
Fixpoint lkind (lt : list (nat * cls)) (l : nat) : option cls :=
  match lt with [] => None | (k, c) :: lt' => if l =? k then Some c else lkind lt' l end.
Definition kind_of (lt : list (nat * cls)) (l : nat) : cls := match lkind lt l with Some c => c | None => 0 end.
Fixpoint add_kinds (ls : list nat) (cs : list cls) (lt : list (nat * cls)) : option (list (nat * cls)) :=
  match ls, cs with
  | [], [] => Some lt
  | l :: ls', c :: cs' =>
      match lkind lt l with
      | Some c' => if c =? c' then add_kinds ls' cs' lt else None
      | None => add_kinds ls' cs' ((l, c) :: lt)
      end
  | _, _ => None
  end.
Fixpoint all_kinds (fs : list (list nat * list cls)) (lt : list (nat * cls)) : option (list (nat * cls)) :=
  match fs with
  | [] => Some lt
  | (ls, cs) :: fs' => match add_kinds ls cs lt with Some lt' => all_kinds fs' lt' | None => None end
  end.
Definition lt_le (a b : list (nat * cls)) : Prop := forall l c, lkind a l = Some c -> lkind b l = Some c.
Lemma add_kinds_ok : forall ls cs lt lt', add_kinds ls cs lt = Some lt' ->
  lt_le lt lt' /\ Forall2 (fun l c => lkind lt' l = Some c) ls cs.
Proof.
  induction ls as [|l ls IH]; intros [|c cs] lt lt' E; cbn in E; try discriminate.
  - injection E as <-. split; [intros l c H; exact H|constructor].
  - destruct (lkind lt l) as [c'|] eqn:E1.
    + destruct (c =? c') eqn:E2; [|discriminate]. apply Nat.eqb_eq in E2. subst c'.
      destruct (IH _ _ _ E) as [A B]. split; [exact A|]. constructor; [apply A, E1|exact B].
    + destruct (IH _ _ _ E) as [A B]. split.
      * intros k d H. apply A. cbn. destruct (k =? l) eqn:Ek; [apply Nat.eqb_eq in Ek; subst; congruence|exact H].
      * constructor; [|exact B]. apply A. cbn. rewrite Nat.eqb_refl. reflexivity.
Qed.
Lemma all_kinds_ok : forall fs lt lt', all_kinds fs lt = Some lt' ->
  lt_le lt lt' /\ Forall (fun f => map (kind_of lt') (fst f) = snd f) fs.
Proof.
  induction fs as [|[ls cs] fs IH]; intros lt lt' E; cbn in E.
  - injection E as <-. split; [intros l c H; exact H|constructor].
  - destruct (add_kinds ls cs lt) as [lt1|] eqn:E1; [|discriminate].
    destruct (add_kinds_ok _ _ _ E1) as [A B]. destruct (IH _ _ E) as [C D].
    split; [intros l c H; apply C, A, H|]. constructor; [|exact D]. cbn [fst snd].
    clear -B C. induction B as [|l c ls cs H B IH]; [reflexivity|]. cbn [map]. f_equal; [|exact IH].
    unfold kind_of. rewrite (C _ _ H). reflexivity.
Qed.

(** Information about values, computed without looking at them. *)
Record dops := mkops {
  dX : Type;
  d_ein : list (list nat * (list cls * dX)) -> list nat -> option dX;
  d_scale : Z -> positive -> dX -> option dX;
  d_add : dX -> dX -> option dX;
  d_zero : list cls -> option dX;
  d_eye : cls -> option dX
}.

Section Check.
  Variable O : dops.
  Definition tyenv := pmap (list cls * dX O).

  Fixpoint fetch_all (G : tyenv) (fs : list (ref * list nat)) : option (list (list nat * (list cls * dX O))) :=
    match fs with
    | [] => Some []
    | (x, ls) :: fs' => match pget x G, fetch_all G fs' with Some t, Some r => Some ((ls, t) :: r) | _, _ => None end
    end.
  Definition check_ein (fs : list (list nat * (list cls * dX O))) (out : list nat) : option (list cls * dX O) :=
    match fs with
    | [] => None
    | _ =>
        match all_kinds (map (fun f => (fst f, fst (snd f))) fs) [] with
        | Some lt =>
            if nodupb out && inclb out (map fst lt) && smallb (map fst lt) then
              match d_ein O fs out with Some x => Some (map (kind_of lt) out, x) | None => None end
            else None
        | None => None
        end
    end.
  Definition check_rhs (G : tyenv) (r : rhs) : option (list cls * dX O) :=
    match r with
    | Einsum fs out => match fetch_all G fs with Some l => check_ein l out | None => None end
    | Transpose x axes =>
        match pget x G with
        | Some (cs, d) => if is_perm (length cs) axes then check_ein [(seq 0 (length cs), (cs, d))] axes else None
        | None => None
        end
    | Copy x => pget x G
    | Zeros cs => match d_zero O cs with Some x => Some (cs, x) | None => None end
    | Eye c => match d_eye O c with Some x => Some ([c; c], x) | None => None end
    end.
  Definition check_expr (G : tyenv) (x : expr) : option (list cls * dX O) :=
    match x with
    | Plain r => check_rhs G r
    | Times r n d =>
        match check_rhs G r with
        | Some (cs, x) => match d_scale O n d x with Some x' => Some (cs, x') | None => None end
        | None => None
        end
    end.
  Definition check_add (t u : option (list cls * dX O)) : option (list cls * dX O) :=
    match t, u with
    | Some (cs, x), Some (cs', y) => if eql cs cs' then match d_add O x y with Some z => Some (cs, z) | None => None end else None
    | _, _ => None
    end.
  Definition check_neg (t : option (list cls * dX O)) : option (list cls * dX O) :=
    match t with
    | Some (cs, x) => match d_scale O (-1) 1 x with Some x' => Some (cs, x') | None => None end
    | None => None
    end.
  Definition set_some (G : tyenv) (x : ref) (t : option (list cls * dX O)) : option tyenv :=
    match t with Some _ => Some (pset x t G) | None => None end.
  Definition check1 (G : tyenv) (s : stmt) : option tyenv :=
    match s with
    | Assign x r => set_some G x (check_expr G r)
    | AddTo x r => set_some G x (check_add (pget x G) (check_expr G r))
    | SubFrom x r => set_some G x (check_add (pget x G) (check_neg (check_expr G r)))
    | Del x => match pget x G with Some _ => Some (pset x None G) | None => None end
    end.
  Fixpoint check (G : tyenv) (body : list stmt) : option tyenv :=
    match body with [] => Some G | s :: body' => match check1 G s with Some G' => check G' body' | None => None end end.

  Fixpoint init (ins : list (ref * (list cls * dX O))) (G : tyenv) : tyenv :=
    match ins with [] => G | (x, t) :: ins' => init ins' (pset x (Some t) G) end.
  Definition check_outs (ok : ref -> dX O -> bool) (G : tyenv) (outs : list (ref * list cls)) : bool :=
    forallb (fun o => match pget (fst o) G with Some (cs, d) => eql cs (snd o) && ok (fst o) d | None => false end) outs.

End Check.
Arguments check_ein O fs out : clear implicits.
Arguments check O G body : clear implicits.
Arguments init O ins G : clear implicits.
Arguments check_outs O ok G outs : clear implicits.

Section Domain.
  Variable F : fld.
  Add Field FfieldCg : (fth F).
  Local Open Scope rng_scope.
  Variable I : Type.
  Variable sz : I -> cls -> nat.
  Variable O : dops.

  (** What the information says about the values in each of the runs. *)
  Record domain := mkdom {
    dR : list cls -> dX O -> (I -> list nat -> F) -> Prop;
    dR_ext : forall cs x f g, (forall i idx, inb (map (sz i) cs) idx -> f i idx = g i idx) -> dR cs x f -> dR cs x g;
    d_ein_ok : forall kd fs out x (gs : list (I -> list nat -> F)), fs <> [] ->
      Forall (fun f => map kd (fst f) = fst (snd f)) fs -> NoDup out -> incl out (concat (map fst fs)) ->
      d_ein O fs out = Some x -> Forall2 (fun f g => dR (fst (snd f)) (snd (snd f)) g) fs gs ->
      dR (map kd out) x (fun i => ein F (fun l => sz i (kd l)) (map fst fs) out (map (fun g => g i) gs));
    d_scale_ok : forall cs n d x x' f, d_scale O n d x = Some x' -> dR cs x f -> dR cs x' (fun i idx => coef F n d * f i idx);
    d_add_ok : forall cs x y z f g, d_add O x y = Some z -> dR cs x f -> dR cs y g -> dR cs z (fun i idx => f i idx + g i idx);
    d_zero_ok : forall cs x, d_zero O cs = Some x -> dR cs x (fun _ _ => 0);
    d_eye_ok : forall c x, d_eye O c = Some x ->
      dR [c; c] x (fun _ idx => if (nth 0 idx 0 =? nth 1 idx 0)%nat then 1 else 0)
  }.
  Variable D : domain.
  Local Notation tyenv := (tyenv O).

  (** Meaning. *)
  Variable method : I -> option nat.
  Variable path : I -> list (list nat) -> list nat -> list (list nat) -> list contraction.
  Hypothesis Hpath : forall i, path_ok (path i).

  Definition tensr (r : result (arr F)) : list nat -> F := match r with Ok a => aget 0 a | Err _ => fun _ => 0 end.
  Definition good (t : list cls * dX O) (v : I -> result (arr F)) : Prop :=
    (forall i, exists a, v i = Ok a /\ of_kinds F (sz i) (fst t) a) /\ dR D (fst t) (snd t) (fun i => tensr (v i)).
  Definition agree (G : tyenv) (e : I -> env F) : Prop :=
    forall x t, pget x G = Some t -> good t (fun i => fetch (e i) x).

  Lemma good_ext t v w : (forall i, v i = w i) -> good t v -> good t w.
  Proof.
    intros H [A B]. split.
    - intros i. rewrite <- H. apply A.
    - revert B. apply dR_ext. intros i idx _. rewrite H. reflexivity.
  Qed.

  (** Elements of a contraction of arrays. *)
  Lemma einsum_entry szl subs out (ops : list (arr F)) m pth : ops <> [] -> small (concat subs) -> NoDup out -> incl out (concat subs) ->
    shapes_agree szl subs ops -> valid_path (map letter_of out) (map (map letter_of) subs) pth ->
    exists r, einsum_lists F m false true pth subs (Some out) ops 1 0 None = Ok r /\ wf r /\ shp r = map szl out /\
      forall o, inb (map szl out) o -> aget 0 r o = ein F szl subs out (map (fun a => aget 0 a) ops) o.
  Proof.
    intros Hne Hs Hn Hi Sh V.
    destruct (@list_operands F szl subs (Some out) out ops) as (r & (Wr & Sr & Gr) & Er); try assumption; [discriminate|repeat split; assumption|].
    exists r. split; [apply Er; intros _; exact V|]. split; [exact Wr|]. split; [exact Sr|].
    intros o Ho. rewrite (Gr (summed subs out)) by first [exact Ho|split; [apply summed_nodup|intros c; apply summed_in]].
    unfold ein. rewrite sum_over_all; [|intros e e' He; f_equal; apply map_ext; intros p; f_equal; apply map_ext, He|apply summed_nodup].
    transitivity (rsum (map (fun v => product_term F subs ops (env_of (out ++ summed subs out) (o ++ v))) (all_idx (map szl (summed subs out))))); [ring|].
    apply rsum_map_ext. intros v Hv. unfold product_term.
    assert (E : combine subs (map (fun a => aget (0 : F) a) ops) = map (fun p => (fst p, aget 0 (snd p))) (combine subs ops)).
    { clear. revert ops. induction subs as [|s subs IH]; intros [|a ops]; cbn; [reflexivity..|]. f_equal. apply IH. }
    rewrite E, map_map. f_equal. apply map_ext_in. intros [ls a] Hp. cbn [fst snd]. f_equal. apply map_ext_in. intros c Hc.
    pose proof (inb_length Ho) as HL. rewrite map_length in HL.
    assert (Hcc : In c (concat subs)) by (apply in_concat; exists ls; split; [eapply in_combine_l; exact Hp|exact Hc]).
    unfold setl, env_of. destruct (in_dec Nat.eq_dec c out) as [Io|Io].
    - destruct (index_of_in out c Io) as [k Hk].
      assert (E1 : index_of c (out ++ summed subs out) = Some k).
      { apply index_of_nth in Hk as [K1 K2]. rewrite <- K2.
        rewrite <- (app_nth1 out (summed subs out) 0%nat K1).
        apply index_of_nodup; [|rewrite app_length; lia].
        apply NoDup_app_intro; [exact Hn|apply summed_nodup|]. intros z Z1 Z2. apply summed_in in Z2. tauto. }
      rewrite E1, Hk. apply index_of_nth in Hk as [K1 K2].
      destruct (index_of c (summed subs out)) as [j|] eqn:Ej.
      { apply index_of_nth in Ej as [J1 J2]. exfalso. assert (In c (summed subs out)) by (rewrite <- J2; apply nth_In, J1).
        apply summed_in in H. tauto. }
      apply app_nth1. lia.
    - assert (Is : In c (summed subs out)) by (apply summed_in; tauto).
      destruct (index_of_in _ c Is) as [k Hk]. rewrite Hk.
      apply index_of_nth in Hk as [K1 K2].
      assert (E1 : index_of c (out ++ summed subs out) = Some (length out + k)%nat).
      { replace c with (nth (length out + k) (out ++ summed subs out) 0%nat) by (rewrite app_nth2_plus; exact K2).
        apply index_of_nodup; [|rewrite app_length; lia].
        apply NoDup_app_intro; [exact Hn|apply summed_nodup|]. intros z Z1 Z2. apply summed_in in Z2. tauto. }
      rewrite E1. rewrite app_nth2 by lia. f_equal. lia.
  Qed.

  Lemma fetch_all_ok G (e : I -> env F) : agree G e -> forall fs l, fetch_all G fs = Some l ->
    map fst l = map snd fs /\
    Forall2 (fun f g => good (snd f) g) l (map (fun f i => fetch (e i) (fst f)) fs).
  Proof.
    intros HG. induction fs as [|[x ls] fs IH]; intros l E; cbn [fetch_all] in E.
    - injection E as <-. split; [reflexivity|constructor].
    - destruct (pget x G) as [t|] eqn:E1; [|discriminate]. destruct (fetch_all G fs) as [r|] eqn:E2; [|discriminate].
      injection E as <-. destruct (IH r eq_refl) as [A B]. split; [cbn [map fst snd]; f_equal; exact A|].
      cbn [map]. constructor; [apply HG, E1|exact B].
  Qed.

  Lemma kinds_labels fs : forall lt lt', all_kinds fs lt = Some lt' ->
    (forall l, In l (map fst lt') <-> In l (map fst lt) \/ In l (concat (map fst fs))).
  Proof.
    induction fs as [|[ls cs] fs IH]; intros lt lt' E l; cbn in E.
    - injection E as <-. cbn. tauto.
    - destruct (add_kinds ls cs lt) as [lt1|] eqn:E1; [|discriminate]. rewrite (IH _ _ E).
      cbn [map fst concat]. rewrite in_app_iff.
      assert (A : forall ls cs lt lt1, add_kinds ls cs lt = Some lt1 -> In l (map fst lt1) <-> In l (map fst lt) \/ In l ls).
      { clear. induction ls as [|k ls IH]; intros [|c cs] lt lt1 E; cbn in E; try discriminate.
        - injection E as <-. cbn. tauto.
        - destruct (lkind lt k) as [c'|] eqn:Ek.
          + destruct (c =? c')%nat; [|discriminate]. rewrite (IH _ _ _ E). cbn.
            assert (In k (map fst lt)); [|firstorder congruence].
            clear -Ek. induction lt as [|[a b] lt IH]; cbn in *; [discriminate|].
            destruct (k =? a)%nat eqn:E; [apply Nat.eqb_eq in E; left; congruence|right; auto].
          + rewrite (IH _ _ _ E). cbn. firstorder. }
      rewrite (A _ _ _ _ E1). tauto.
  Qed.

  Lemma ein_good fs out t (vs : list (I -> result (arr F))) : check_ein O fs out = Some t ->
    Forall2 (fun f g => good (snd f) g) fs vs ->
    good t (fun i => ops <- mapM (fun v => v i) vs ;;
      einsum_lists F (method i) false true (path i (map fst fs) out (map (@shp F) ops)) (map fst fs) (Some out) ops 1 0 None).
  Proof.
    intros E HF. unfold check_ein in E. destruct fs as [|f0 fs0]; [discriminate|]. remember (f0 :: fs0) as fs eqn:Efs.
    destruct (all_kinds _ []) as [lt|] eqn:Ek; [|discriminate].
    destruct (nodupb out && inclb out (map fst lt) && smallb (map fst lt))%bool eqn:Eb; [|discriminate].
    apply andb_prop in Eb as [Eb Esm]. apply andb_prop in Eb as [End Ein].
    destruct (d_ein O fs out) as [x|] eqn:Ex; [|discriminate]. injection E as <-.
    destruct (all_kinds_ok _ _ Ek) as [_ HK]. pose proof (kinds_labels _ _ Ek) as HL.
    assert (HL' : forall l, In l (map fst lt) <-> In l (concat (map fst fs))).
    { intros l. rewrite (HL l). rewrite map_map. cbn [fst map]. cbn. tauto. }
    assert (Hsm : small (concat (map fst fs))).
    { intros l Hl. apply (smallb_ok _ Esm). apply HL', Hl. }
    assert (Hin : incl out (concat (map fst fs))).
    { intros l Hl. apply HL', (inclb_ok _ _ Ein), Hl. }
    apply nodupb_ok in End.
    assert (HK' : Forall (fun f => map (kind_of lt) (fst f) = fst (snd f)) fs).
    { rewrite Forall_map in HK. exact HK. }
    set (kd := kind_of lt) in *.
    assert (Hops : forall i, exists ops, mapM (fun v => v i) vs = Ok ops /\
      shapes_agree (fun l => sz i (kd l)) (map fst fs) ops /\
      map (fun a => aget 0 a) ops = map (fun g => tensr (g i)) vs).
    { intros i. clear -HF HK'. induction HF as [|f g fs vs Hg HF IH]; [exists []; repeat split; constructor|].
      inversion HK' as [|? ? K1 K2]; subst. destruct (IH K2) as (ops & A & B & C).
      destruct Hg as [Hg _]. destruct (Hg i) as (a & Ea & Wa & Sa).
      exists (a :: ops). cbn [mapM map]. rewrite Ea. cbn [bind]. rewrite A. cbn [bind]. split; [reflexivity|]. split.
      - constructor; [|exact B]. split; [exact Wa|]. rewrite Sa, <- K1, map_map. reflexivity.
      - rewrite C. reflexivity. }
    assert (Hne : forall ops i, mapM (fun v => v i) vs = Ok ops -> ops <> []).
    { intros ops i Eo. destruct (Hops i) as (ops' & A & B & _). rewrite A in Eo. injection Eo as <-.
      rewrite Efs in B. inversion B. discriminate. }
    assert (Hent : forall i, exists r, (ops <- mapM (fun v => v i) vs ;;
      einsum_lists F (method i) false true (path i (map fst fs) out (map (@shp F) ops)) (map fst fs) (Some out) ops 1 0 None) = Ok r /\
      of_kinds F (sz i) (map kd out) r /\
      forall o, inb (map (sz i) (map kd out)) o -> aget 0 r o = ein F (fun l => sz i (kd l)) (map fst fs) out (map (fun g => tensr (g i)) vs) o).
    { intros i. destruct (Hops i) as (ops & A & B & C). rewrite A. cbn [bind].
      destruct (@einsum_entry (fun l => sz i (kd l)) (map fst fs) out ops (method i) (path i (map fst fs) out (map (@shp F) ops))) as (r & Er & Wr & Sr & Gr); try assumption.
      - apply (Hne ops i A).
      - apply Hpath.
      - exists r. split; [exact Er|]. split; [split; [exact Wr|rewrite Sr, map_map; reflexivity]|].
        intros o Ho. rewrite map_map in Ho. rewrite (Gr o Ho). rewrite C. reflexivity. }
    split; cbn [fst snd].
    - intros i. destruct (Hent i) as (r & A & B & _). exists r. split; assumption.
    - apply dR_ext with (f := fun i => ein F (fun l => sz i (kd l)) (map fst fs) out (map (fun g => g i) (map (fun v i => tensr (v i)) vs))).
      + intros i o Ho. destruct (Hent i) as (r & A & _ & B). rewrite A. cbn [tensr]. rewrite (B o Ho). rewrite map_map. reflexivity.
      + apply d_ein_ok with (x := x); try assumption; [rewrite Efs; discriminate|].
        clear -HF. induction HF as [|f g fs vs Hg HF IH]; cbn [map]; constructor; [apply Hg|exact IH].
  Qed.

  Lemma transpose_as_ein i cs axes (a : arr F) : of_kinds F (sz i) cs a -> Permutation (seq 0 (length cs)) axes ->
    exists b, transpose 0 a axes = Ok b /\
    forall m pth, path_ok pth -> forall r, small (seq 0 (length cs)) ->
      einsum_lists F m false true (pth [seq 0 (length cs)] axes [shp a]) [seq 0 (length cs)] (Some axes) [a] 1 0 None = Ok r -> b = r.
  Proof.
    intros [Wa Sa] Hp.
    assert (Hl : length (shp a) = length cs) by (rewrite Sa; apply map_length).
    assert (Hp' : Permutation (seq 0 (length (shp a))) axes) by (rewrite Hl; exact Hp).
    destruct (@transpose_inv F 0 a axes _ (transpose_ok 0 a Hp')) as (_ & Sb & Wb & Gb).
    eexists. split; [apply transpose_ok, Hp'|]. intros m pth Hpo r Hsm Er.
    set (szl := fun l => nth l (shp a) 0%nat) in *.
    assert (Hax : NoDup axes) by (apply (@perm_seq_nodup _ _ Hp)).
    assert (Hinc : incl axes (concat [seq 0 (length cs)])).
    { cbn [concat]. rewrite app_nil_r. intros k Hk. apply in_seq. apply (@perm_seq_lt _ _ k Hp) in Hk. lia. }
    assert (Hsmall : small (concat [seq 0 (length cs)])) by (cbn [concat]; rewrite app_nil_r; exact Hsm).
    assert (Hsh : shapes_agree szl [seq 0 (length cs)] [a]).
    { constructor; [|constructor]. split; [exact Wa|]. unfold szl. rewrite <- Hl, map_nth_seq. reflexivity. }
    destruct (@einsum_entry szl [seq 0 (length cs)] axes [a] m (pth [seq 0 (length cs)] axes [shp a])) as (r' & Er' & Wr & Sr & Gr);
      try assumption; [discriminate|apply Hpo|].
    assert (r' = r) by congruence. subst r'. apply arr_ext with (d := 0); try assumption; [rewrite Sb, Sr; reflexivity|].
    intros idx Hi. rewrite (Gb idx Hi). cbn [tab shp] in Hi. rewrite (Gr idx Hi).
    assert (Esum : summed [seq 0 (length cs)] axes = []).
    { destruct (summed [seq 0 (length cs)] axes) as [|c l] eqn:E; [reflexivity|]. exfalso.
      assert (H : In c (summed [seq 0 (length cs)] axes)) by (rewrite E; left; reflexivity).
      apply summed_in in H as [H1 H2]. cbn [concat] in H1. rewrite app_nil_r in H1. apply H2.
      apply (Permutation_in _ Hp H1). }
    unfold ein. rewrite Esum. cbn [sum_over combine map fst snd rprod fold_right].
    transitivity (aget 0 a (map (env_of axes idx) (seq 0 (length cs)))); [|ring]. f_equal.
    pose proof (inb_length Hi) as HL. rewrite map_length in HL.
    apply nth_ext with (d := 0%nat) (d' := 0%nat).
    { rewrite unperm_length, map_length, seq_length. apply (@perm_seq_length _ _ Hp). }
    intros k Hk. rewrite unperm_length in Hk.
    rewrite (@perm_seq_length _ _ Hp) in Hk. rewrite nth_map_seq by exact Hk. unfold env_of.
    destruct (@index_of_in axes k) as [j Hj]; [apply (@perm_seq_lt _ _ k Hp), Hk|]. rewrite Hj.
    assert (Hp2 : Permutation (seq 0 (length axes)) axes) by (rewrite (@perm_seq_length _ _ Hp); exact Hp).
    apply index_of_nth in Hj as [J1 J2]. rewrite <- J2 at 1. apply unperm_nth; assumption.
  Qed.

  Lemma rhs_good G (e : I -> env F) r t : agree G e -> check_rhs G r = Some t ->
    good t (fun i => eval_rhs (method i) (path i) (sz i) (e i) r).
  Proof.
    intros HG E. destruct r as [fs out|x axes|x|cs|c]; cbn [check_rhs eval_rhs] in *.
    - destruct (fetch_all G fs) as [l|] eqn:El; [|discriminate].
      destruct (fetch_all_ok HG _ El) as [E1 HF]. pose proof (@ein_good _ _ _ _ E HF) as H. revert H. apply good_ext.
      intros i. rewrite E1. f_equal. clear. induction fs as [|[x ls] fs IH]; [reflexivity|]. cbn [map mapM fst]. rewrite IH. reflexivity.
    - destruct (pget x G) as [[cs d]|] eqn:Ex; [|discriminate]. destruct (is_perm (length cs) axes) eqn:Ep; [|discriminate].
      apply is_perm_iff in Ep. pose proof (HG x _ Ex) as Hx.
      assert (HF : Forall2 (fun f g => good (snd f) g) [(seq 0 (length cs), (cs, d))] [fun i => fetch (e i) x]) by (repeat constructor; apply Hx).
      pose proof (@ein_good _ _ _ _ E HF) as H. revert H. apply good_ext. intros i. cbn [map fst].
      destruct Hx as [Hx _]. destruct (Hx i) as (a & Ea & Ka). cbn [mapM]. rewrite Ea. cbn [bind map].
      destruct (@transpose_as_ein _ _ _ _ Ka Ep) as (b & Eb & Hb). rewrite Eb.
      assert (Hs : small (seq 0 (length cs))).
      { unfold check_ein in E. destruct (all_kinds _ []) as [lt|] eqn:Ek; [|discriminate].
        destruct (nodupb axes && inclb axes (map fst lt) && smallb (map fst lt))%bool eqn:Ebb; [|discriminate].
        apply andb_prop in Ebb as [_ Esm]. intros l Hl. apply (smallb_ok _ Esm).
        apply (kinds_labels _ _ Ek). right. cbn. rewrite app_nil_r. exact Hl. }
      destruct (@ein_good _ _ _ _ E HF) as [H _]. destruct (H i) as (r & Er & _). cbn [mapM map fst] in Er. rewrite Ea in Er. cbn [bind map] in Er.
      rewrite Er. f_equal. symmetry. eapply Hb; [apply (Hpath i)|exact Hs|exact Er].
    - apply HG, E.
    - destruct (d_zero O cs) as [x|] eqn:Ex; [|discriminate]. injection E as <-. split.
      + intros i. eexists. split; [reflexivity|]. split; [apply full_wf|reflexivity].
      + cbn [fst snd]. eapply dR_ext; [|apply (d_zero_ok D cs Ex)]. intros i idx _. cbn [tensr]. symmetry. apply aget_full.
    - destruct (d_eye O c) as [x|] eqn:Ex; [|discriminate]. injection E as <-. split.
      + intros i. eexists. split; [reflexivity|]. split; [apply tab_wf|reflexivity].
      + cbn [fst snd]. eapply dR_ext; [|apply (d_eye_ok D c Ex)]. intros i idx Hi. cbn [tensr]. symmetry. apply aget_tab, Hi.
  Qed.

  Lemma good_scale cs x x' n d c v : coef F n d = c -> d_scale O n d x = Some x' -> good (cs, x) v ->
    good (cs, x') (fun i => a <- v i ;; Ok (arr_scale F c a)).
  Proof.
    intros Hc E [A B]. cbn [fst snd] in *. split; cbn [fst snd].
    - intros i. destruct (A i) as (a & Ea & Wa & Sa). rewrite Ea. cbn [bind]. eexists. split; [reflexivity|].
      split; [apply arr_scale_wf, Wa|exact Sa].
    - eapply dR_ext; [|apply (@d_scale_ok D _ _ _ _ _ _ E B)]. intros i idx _. destruct (A i) as (a & Ea & _). rewrite Ea. cbn [bind tensr].
      rewrite aget_scale, Hc. ring.
  Qed.

  Lemma expr_good G (e : I -> env F) r t : agree G e -> check_expr G r = Some t ->
    good t (fun i => eval_expr (method i) (path i) (sz i) (e i) r).
  Proof.
    intros HG E. destruct r as [r|r n d]; cbn [check_expr eval_expr] in *; [apply (@rhs_good _ _ _ _ HG E)|].
    destruct (check_rhs G r) as [[cs x]|] eqn:Er; [|discriminate]. destruct (d_scale O n d x) as [x'|] eqn:Ex; [|discriminate].
    injection E as <-. eapply good_scale; [reflexivity|exact Ex|]. apply (@rhs_good _ _ _ _ HG Er).
  Qed.

  Lemma coef_m1 : coef F (-1) 1 = - (1).
  Proof.
    unfold coef, rZ. change (Pos.to_nat 1) with 1%nat. cbn [rnat].
    replace (1 + 0) with (1 : F) by ring. field. apply (F_1_neq_0 (fth F)).
  Qed.

  Lemma good_neg t t' v : check_neg O (Some t) = Some t' -> good t v -> good t' (fun i => a <- v i ;; Ok (arr_scale F (- (1)) a)).
  Proof.
    destruct t as [cs x]. cbn [check_neg]. destruct (d_scale O (-1) 1 x) as [x'|] eqn:E; [|discriminate]. intros H; injection H as <-.
    apply good_scale with (n := (-1)%Z) (d := 1%positive) (x := x); [apply coef_m1|exact E].
  Qed.

  Lemma good_add t u w v1 v2 : check_add O (Some t) (Some u) = Some w -> good t v1 -> good u v2 ->
    good w (fun i => b <- v1 i ;; a <- v2 i ;; arr_addM F b a).
  Proof.
    destruct t as [cs x], u as [cs' y]. cbn [check_add]. destruct (eql cs cs') eqn:Ec; [|discriminate]. apply eql_ok in Ec. subst cs'.
    destruct (d_add O x y) as [z|] eqn:Ez; [|discriminate]. intros H; injection H as <-. intros [A1 B1] [A2 B2]. cbn [fst snd] in *.
    assert (HH : forall i, exists b a, v1 i = Ok b /\ v2 i = Ok a /\ arr_addM F b a = Ok (arr_add F b a) /\ of_kinds F (sz i) cs b /\ of_kinds F (sz i) cs a).
    { intros i. destruct (A1 i) as (b & Eb & Kb). destruct (A2 i) as (a & Ea & Ka). exists b, a. repeat split; try apply Kb; try apply Ka; try assumption.
      unfold arr_addM. destruct Ka as [_ Sa], Kb as [_ Sb]. rewrite Sa, Sb.
      destruct (list_eq_dec _ _ _) as [|N]; [reflexivity|contradiction N; reflexivity]. }
    split; cbn [fst snd].
    - intros i. destruct (HH i) as (b & a & Eb & Ea & E & [Wb Sb] & [Wa Sa]). rewrite Eb, Ea. cbn [bind]. rewrite E. eexists. split; [reflexivity|].
      split; [apply arr_add_wf; [exact Wb|exact Wa|congruence]|exact Sb].
    - eapply dR_ext; [|apply (@d_add_ok D _ _ _ _ _ _ Ez B1 B2)]. intros i idx _. destruct (HH i) as (b & a & Eb & Ea & E & [Wb Sb] & [Wa Sa]).
      rewrite Eb, Ea. cbn [bind tensr]. rewrite E. cbn [tensr]. rewrite aget_add; [reflexivity|exact Wb|exact Wa|congruence].
  Qed.

  Definition getok {A} (d : A) (r : result A) : A := match r with Ok a => a | Err _ => d end.

  Lemma agree_bind G e x t v : agree G e -> good t v ->
    agree (pset x (Some t) G) (fun i => bindv (e i) x (match v i with Ok a => Some a | Err _ => None end)).
  Proof.
    intros HG Hv y u. rewrite pget_set. destruct (Pos.eqb y x) eqn:E.
    - intros H; injection H as <-. revert Hv. intros Hv. eapply good_ext; [|exact Hv].
      intros i. unfold fetch, bindv. rewrite E. destruct Hv as [A _]. destruct (A i) as (a & Ea & _). rewrite Ea. reflexivity.
    - intros Hy. eapply good_ext; [|apply (HG y u Hy)]. intros i. unfold fetch, bindv. rewrite E. reflexivity.
  Qed.

  Lemma exec1_ok G G' (e : I -> env F) s : agree G e -> check1 G s = Some G' ->
    exists e', (forall i, exec1 (method i) (path i) (sz i) (e i) s = Ok (e' i)) /\ agree G' e'.
  Proof.
    intros HG E. destruct s as [x r|x r|x r|x]; cbn [check1 exec1] in *.
    - destruct (check_expr G r) as [t|] eqn:Er; [|discriminate]. injection E as <-.
      pose proof (@expr_good _ _ _ _ HG Er) as Hv. eexists. split; [|apply (@agree_bind _ _ x _ _ HG Hv)].
      intros i. destruct Hv as [A _]. destruct (A i) as (a & Ea & _). rewrite Ea. reflexivity.
    - destruct (pget x G) as [t|] eqn:Ex; [|discriminate]. destruct (check_expr G r) as [u|] eqn:Er; [|destruct t; discriminate].
      destruct (check_add O (Some t) (Some u)) as [w|] eqn:Ea; [|discriminate]. injection E as <-.
      pose proof (@good_add _ _ _ _ _ Ea (HG x t Ex) (@expr_good _ _ _ _ HG Er)) as Hv. eexists. split; [|apply (@agree_bind _ _ x _ _ HG Hv)].
      intros i. destruct Hv as [A _]. destruct (A i) as (c & Ec & _). rewrite Ec. cbn beta in Ec.
      apply bind_ok in Ec as (b & Eb & Ec). apply bind_ok in Ec as (a & Ea' & Ec). rewrite Eb, Ea'. cbn [bind]. rewrite Ec. reflexivity.
    - destruct (pget x G) as [t|] eqn:Ex; [|discriminate]. destruct (check_expr G r) as [u|] eqn:Er; [|destruct t; discriminate].
      destruct (check_neg O (Some u)) as [u'|] eqn:En; [|destruct t; discriminate].
      destruct (check_add O (Some t) (Some u')) as [w|] eqn:Ea; [|discriminate]. injection E as <-.
      pose proof (@good_add _ _ _ _ _ Ea (HG x t Ex) (@good_neg _ _ _ En (@expr_good _ _ _ _ HG Er))) as Hv. eexists. split; [|apply (@agree_bind _ _ x _ _ HG Hv)].
      intros i. destruct Hv as [A _]. destruct (A i) as (c & Ec & _). rewrite Ec. cbn beta in Ec.
      apply bind_ok in Ec as (b & Eb & Ec). apply bind_ok in Ec as (a & Ea' & Ec). apply bind_ok in Ea' as (a' & Ea' & E2). injection E2 as <-.
      rewrite Eb, Ea'. cbn [bind]. rewrite Ec. reflexivity.
    - destruct (pget x G) as [t|] eqn:Ex; [|discriminate]. injection E as <-.
      exists (fun i => bindv (e i) x None). split.
      + intros i. destruct (HG x t Ex) as [A _]. destruct (A i) as (a & Ea & _). rewrite Ea. reflexivity.
      + intros y u. rewrite pget_set. destruct (Pos.eqb y x) eqn:Ey; [discriminate|]. intros Hy.
        eapply good_ext; [|apply (HG y u Hy)]. intros i. unfold fetch, bindv. rewrite Ey. reflexivity.
  Qed.

  Theorem exec_ok body : forall G G' (e : I -> env F), agree G e -> check O G body = Some G' ->
    exists e', (forall i, exec (method i) (path i) (sz i) (e i) body = Ok (e' i)) /\ agree G' e'.
  Proof.
    induction body as [|s body IH]; intros G G' e HG E; cbn [check] in E.
    - injection E as <-. exists e. split; [reflexivity|exact HG].
    - destruct (check1 G s) as [G1|] eqn:E1; [|discriminate]. destruct (@exec1_ok _ _ _ _ HG E1) as (e1 & A1 & B1).
      destruct (IH _ _ _ B1 E) as (e' & A & B). exists e'. split; [|exact B]. intros i. cbn [exec]. rewrite A1. cbn [bind]. apply A.
  Qed.

  Lemma init_get ins : forall G x, pget x (init O ins G) = pget x G \/ exists t, pget x (init O ins G) = Some t /\ In (x, t) ins.
  Proof.
    induction ins as [|[y u] ins IH]; intros G x; cbn [init]; [left; reflexivity|].
    destruct (IH (pset y (Some u) G) x) as [E|(t & E & H)].
    - rewrite E, pget_set. destruct (Pos.eqb x y) eqn:Exy; [|left; reflexivity]. apply Pos.eqb_eq in Exy. subst y.
      right. exists u. split; [reflexivity|left; reflexivity].
    - right. exists t. split; [exact E|right; exact H].
  Qed.

  (** All runs of a function succeed, and the information computed about its results is true. *)
  Theorem prog_ok ins body outs ok G' (e : I -> env F) :
    (forall x cs d, In (x, (cs, d)) ins -> (forall i, exists a, e i x = Some a /\ of_kinds F (sz i) cs a) /\ dR D cs d (fun i => tens F (e i x))) ->
    check O (init O ins PL) body = Some G' -> check_outs O ok G' outs = true ->
    exists e', (forall i, exec (method i) (path i) (sz i) (e i) body = Ok (e' i)) /\
      forall x cs, In (x, cs) outs -> (forall i, exists a, e' i x = Some a /\ of_kinds F (sz i) cs a) /\
        exists d, (pget x G' = Some (cs, d) /\ ok x d = true) /\ dR D cs d (fun i => tens F (e' i x)).
  Proof.
    intros Hin E Eo.
    assert (HG : agree (init O ins PL) e).
    { intros x t Hx. destruct (init_get ins PL x) as [E1|(t' & E1 & H)]; [rewrite E1, pget_L in Hx; discriminate|].
      rewrite Hx in E1. injection E1 as <-. destruct t as [cs d]. destruct (Hin x cs d H) as [A B]. split.
      - intros i. destruct (A i) as (a & Ea & Ka). exists a. unfold fetch. rewrite Ea. split; [reflexivity|exact Ka].
      - cbn [fst snd]. eapply dR_ext; [|exact B]. intros i idx _. unfold tens, fetch. destruct (e i x); reflexivity. }
    destruct (@exec_ok _ _ _ _ HG E) as (e' & A & B). exists e'. split; [exact A|]. intros x cs Hx.
    unfold check_outs in Eo. rewrite forallb_forall in Eo. specialize (Eo _ Hx). cbn [fst snd] in Eo.
    destruct (pget x G') as [[cs' d]|] eqn:Ex; [|discriminate]. apply andb_prop in Eo as [E1 E2]. apply eql_ok in E1. subst cs'.
    destruct (B x _ Ex) as [C1 C2]. cbn [fst snd] in *. split.
    - intros i. destruct (C1 i) as (a & Ea & Ka). exists a. unfold fetch in Ea. destruct (e' i x); [injection Ea as ->|discriminate].
      split; [reflexivity|exact Ka].
    - exists d. split; [split; [reflexivity|exact E2]|]. eapply dR_ext; [|exact C2]. intros i idx _. unfold tens, fetch. destruct (e' i x); reflexivity.
  Qed.

  (** The same in terms of the returned arrays. *)
  Theorem run_ok p ins ok G' (e : I -> env F) :
    (forall x cs d, In (x, (cs, d)) ins -> (forall i, exists a, e i x = Some a /\ of_kinds F (sz i) cs a) /\ dR D cs d (fun i => tens F (e i x))) ->
    check O (init O ins PL) (p_body p) = Some G' -> check_outs O ok G' (p_out p) = true ->
    exists rs, (forall i, run (method i) (path i) (sz i) p (e i) = Ok (rs i) /\ length (rs i) = length (p_out p)) /\
      forall k x cs, nth_error (p_out p) k = Some (x, cs) ->
        (forall i, exists a, nth_error (rs i) k = Some a /\ of_kinds F (sz i) cs a) /\
        exists d, (pget x G' = Some (cs, d) /\ ok x d = true) /\ dR D cs d (fun i => entry F (rs i) k).
  Proof.
    intros Hin E Eo. destruct (@prog_ok ins (p_body p) (p_out p) ok G' e Hin E Eo) as (e' & A & B).
    set (rs := fun i => map (fun o => match e' i (fst o) with Some a => a | None => mkarr [] [] end) (p_out p)).
    assert (Hrs : forall i, mapM (fun x => fetch (e' i) (fst x)) (p_out p) = Ok (rs i)).
    { intros i. unfold rs. clear -B. induction (p_out p) as [|[x cs] outs IH]; [reflexivity|]. cbn [mapM map fst].
      destruct (B x cs (or_introl eq_refl)) as [B1 _]. destruct (B1 i) as (a & Ea & _). unfold fetch at 1. rewrite Ea. cbn [bind].
      rewrite IH; [reflexivity|]. intros y ds Hy. apply B. right. exact Hy. }
    exists rs. split.
    - intros i. split; [unfold run; rewrite A; cbn [bind]; apply Hrs|unfold rs; apply map_length].
    - intros k x cs Hk. destruct (B x cs (nth_error_In _ _ Hk)) as [B1 (d & Od & Rd)].
      assert (Hn : forall i, nth_error (rs i) k = e' i x).
      { intros i. unfold rs. rewrite (map_nth_error _ _ _ Hk). cbn [fst]. destruct (B1 i) as (a & Ea & _). rewrite Ea. reflexivity. }
      split.
      + intros i. destruct (B1 i) as (a & Ea & Ka). exists a. rewrite Hn. split; assumption.
      + exists d. split; [exact Od|]. eapply dR_ext; [|exact Rd]. intros i idx _. unfold entry, tens. rewrite Hn. reflexivity.
  Qed.
End Domain.
Arguments dR {F I sz O} _ _ _ _.
