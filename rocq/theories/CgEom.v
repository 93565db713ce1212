(** Matrix-vector products of the equation-of-motion methods. *)
From Coq Require Import List String ZArith Ring.
From Verif Require Import Base Alg ArrModel EinsumModel CgModel CgSpec CgFormSpec CgProofs CgPoly CgPolyProofs CgPolyDom CgCompare CgCompareProofs CgRename CgBuild.
From Verif Require Import CgNames CgTables CgTables2 CgRelSpec CgRel CgRelProofs CgPart CgDelta CgPairs CgDensSpec CgLagSpec CgAgree CgAgree2 CgDens CgChainSpec CgChain EomModel CgEomSpec CgEomPairs.
Import ListNotations.
Local Open Scope list_scope. Local Open Scope nat_scope.

Definition one (p : prog * prog) : prog := chain (fst p) (snd p).
Lemma all_chain : forallb (fun t : string * spin_type * sector * (prog * prog) => chain_ok (fst (snd t)) (snd (snd t))) products = true.
Proof. vm_compute. reflexivity. Qed.

Definition check_ru_products (t : string * sector * (prog * prog) * (prog * prog)) : bool :=
  match t with (_, x, p, q) => compare (with_vector Restricted x) (with_vector_symmetries Restricted x) (first_vector Restricted x) (one p) closed_split (closed_shell_arguments x) (one q) (closed_shell_products x) end.
Definition check_ug_products (t : string * sector * (prog * prog) * (prog * prog)) : bool :=
  match t with (_, x, p, q) => compare (with_vector Unrestricted x) (with_vector_symmetries Unrestricted x) (first_vector Unrestricted x) (one p) spin_split (spin_orbital_arguments x) (one q) (spin_orbital_products x) end.
Definition check_fitted_products (t : string * spin_type * sector * (prog * prog) * (prog * prog)) : bool :=
  match t with (_, s, x, p, q) => compare (with_vector s x) (with_vector_symmetries s x) (fitting s ++ first_vector s x) (one q) id_split (first_vector s x) (one p) (same_products s x) end.
Definition minus (a b : formula) : formula := a ++ scaled (-1) b.
Definition check_adjoint (t : string * spin_type * sector * (prog * prog) * (prog * prog)) : bool :=
  match t with (_, s, x, p, q) => all_vanish (with_vectors s x) (with_vectors_symmetries s x) [(first_vector s x, one p); (second_vector s x, one q)]
     [([], minus (inner_product s x (fun t => nm 0 (direction t)) (nm 1)) (inner_product s x (nm 0) (nm 2)))] end.
Definition linear_formula (t : ref * list nat) : list nat * formula :=
  (snd t, [mono 1 1 [(nm 1 (new (fst t)), snd t)]; mono (-1) 1 [(nm 2 (new (fst t)), snd t)]; mono (-1) 1 [(nm 0 n_epsilon, []); (nm 3 (new (fst t)), snd t)]]).
Definition outputs_ok (s : spin_type) (x : sector) (p : prog) : bool :=
  nodup_names (map fst (p_out p)) && forallb (fun t : ref * list nat => eql (summed [snd t] (snd t)) [] && nodupb (snd t)) (vector s x) &&
  forallb (fun o => existsb (fun t => Pos.eqb (new (fst t)) (fst o) && eql (map kind (snd t)) (snd o)) (vector s x)) (p_out p).
Lemma all_outputs : forallb (fun t : string * spin_type * sector * (prog * prog) => match t with (_, s, x, p) => outputs_ok s x (snd p) end) products = true.
Proof. vm_compute. reflexivity. Qed.
Definition check_linear (t : string * spin_type * sector * (prog * prog)) : bool :=
  match t with (_, s, x, p) => all_vanish (with_vectors s x) (given_symmetries s) [(combination s x, one p); (first_vector s x, one p); (second_vector s x, one p)] (map linear_formula (vector s x)) end.
Definition symmetry_formula (labels : list nat) (y : ref) (a : list nat * bool) : list nat * formula :=
  (labels, [mono 1 1 [(nm 1 (new y), map (fun i => nth i labels 0) (fst a))]; mono (if snd a then 1 else -1) 1 [(nm 1 (new y), labels)]]).
Definition symmetry_formulas (s : spin_type) (x : sector) : list (list nat * formula) :=
  flat_map (fun y => match find (fun t => Pos.eqb (fst t) (fst y)) (vector s x) with Some t => map (symmetry_formula (snd t) (fst y)) (snd y) | None => [] end) (vector_symmetries s x).
Definition symmetry_labels (s : spin_type) (x : sector) : bool :=
  forallb (fun y : ref * list (list nat * bool) => match find (fun t => Pos.eqb (fst t) (fst y)) (vector s x) with
    | Some t => forallb (fun a : list nat * bool => eql (summed [map (fun i => nth i (snd t) 0) (fst a)] (snd t)) [] && forallb (fun i => i <? length (snd t)) (fst a)) (snd y)
    | None => false end) (vector_symmetries s x) &&
  forallb (fun y => forallb (fun z => negb (Pos.eqb (new (fst y)) (new (fst z))) || Pos.eqb (fst y) (fst z)) (vector s x)) (vector_symmetries s x).
Lemma all_labels : forallb (fun t : string * spin_type * sector * (prog * prog) => match t with (_, s, x, _) => symmetry_labels s x end) products = true.
Proof. vm_compute. reflexivity. Qed.
Definition check_symmetric (t : string * spin_type * sector * (prog * prog)) : bool :=
  match t with (_, s, x, p) => match symmetry_formulas s x with [] => true | l => all_vanish (with_vector s x) (with_vector_symmetries s x) [(first_vector s x, one p)] l end end.
Lemma all_symmetric : forallb check_symmetric products = true.
Proof. vm_compute. reflexivity. Qed.
Lemma all_ru_products : forallb check_ru_products restricted_unrestricted_products = true.
Proof. vm_compute. reflexivity. Qed.
Lemma all_ug_products : forallb check_ug_products unrestricted_general_products = true.
Proof. vm_compute. reflexivity. Qed.
Lemma all_fitted_products : forallb check_fitted_products fitted_products = true.
Proof. vm_compute. reflexivity. Qed.
Lemma all_adjoint : forallb check_adjoint right_left = true.
Proof. vm_compute. reflexivity. Qed.
Lemma all_linear : forallb check_linear products = true.
Proof. vm_compute. reflexivity. Qed.

Lemma calls_sound B S calls l : all_vanish B S calls l = true ->
  forall (F : fld) sz, characteristic_zero F -> forall method path, path_ok path ->
  forall eB : env F, symmetric sz S B eB ->
  forall es, Forall2 (fun c e => called_with sz eB (fst c) (snd c) e) calls es -> l <> [] ->
  exists rs, Forall2 (fun ce r => run method path sz (snd (fst ce)) (snd ce) = Ok r) (combine calls es) rs /\
    forall r, In r l -> forall idx, inb (map sz (map kind (fst r))) idx ->
      value sz (together (eB :: map (fun cr => results F (p_out (snd (fst cr))) (snd cr)) (combine calls rs))) (fst r) (snd r) idx = r0.
Proof.
  intros H F sz H0 m pa P eB HS es Hes Hl.
  assert (A : forall r, In r l -> exists rs, Forall2 (fun ce r => run m pa sz (snd (fst ce)) (snd ce) = Ok r) (combine calls es) rs /\
    forall idx, inb (map sz (map kind (fst r))) idx -> value sz (together (eB :: map (fun cr => results F (p_out (snd (fst cr))) (snd cr)) (combine calls rs))) (fst r) (snd r) idx = r0).
  { intros r Hr. exact (@vanishes_delta_sound _ _ _ _ _ (@all_vanish_each _ _ _ _ _ H Hr) F sz H0 m pa P eB HS es Hes). }
  destruct l as [|r0 l]; [contradiction|]. destruct (A r0 (or_introl eq_refl)) as (rs & R & _). exists rs. split; [exact R|].
  intros r Hr. destruct (A r Hr) as (rs' & R' & V). assert (rs = rs') as ->; [|exact V].
  clear -R R'. revert rs' R'. induction R as [|c r l rs Hc R IH]; intros rs' R'; inversion R' as [|? r' ? rs1 Hc' R1]; subst; [reflexivity|].
  rewrite Hc in Hc'. injection Hc' as <-. f_equal. apply IH, R1.
Qed.

(** Calls of products as calls of one function. *)
Section Product.
  Variable F : fld.
  Variable sz : cls -> nat.
  Lemma product_called split (eB : env F) T p e : chain_ok (fst p) (snd p) = true -> product_called_with F sz split eB T p e ->
    args_ok sz (p_in (one p)) e /\ forall x cs, In (x, cs) (p_in (one p)) -> given_by sz split T eB x cs (tens F (e x)).
  Proof.
    intros C [A G]. split.
    - exact (proj1 (chain_arguments (fst p) (snd p) (fun x cs => exists a, e x = Some a /\ of_kinds F sz cs a) C) A).
    - exact (proj1 (chain_arguments (fst p) (snd p) (fun x cs => given_by sz split T eB x cs (tens F (e x))) C) G).
  Qed.
  Lemma product_called_back split (eB : env F) T p e : chain_ok (fst p) (snd p) = true ->
    args_ok sz (p_in (one p)) e -> (forall x cs, In (x, cs) (p_in (one p)) -> given_by sz split T eB x cs (tens F (e x))) -> product_called_with F sz split eB T p e.
  Proof.
    intros C A G. split.
    - exact (proj2 (chain_arguments (fst p) (snd p) (fun x cs => exists a, e x = Some a /\ of_kinds F sz cs a) C) A).
    - exact (proj2 (chain_arguments (fst p) (snd p) (fun x cs => given_by sz split T eB x cs (tens F (e x))) C) G).
  Qed.
End Product.
Lemma product_arguments_exist split T p : chain_ok (fst p) (snd p) = true -> forall (F : fld) sz (eB : env F), splits sz split -> exists e, product_called_with F sz split eB T p e.
Proof.
  intros C F sz eB Hs. pose proof C as C'. unfold chain_ok in C'. apply andb_prop in C' as [_ N]. apply nodup_names_ok in N.
  exists (build sz split T eB (p_in (one p))). apply product_called_back; [exact C|apply build_args, N|apply build_given; assumption].
Qed.
Lemma in_products {X} (l : list X) (f : X -> prog * prog) : forallb (fun t => chain_ok (fst (f t)) (snd (f t))) l = true -> forall t, In t l -> chain_ok (fst (f t)) (snd (f t)) = true.
Proof. intros H t Ht. rewrite forallb_forall in H. exact (H t Ht). Qed.
Lemma compared B S Tp p split Tg g Tout : chain_ok (fst p) (snd p) = true -> chain_ok (fst g) (snd g) = true ->
  compare B S Tp (one p) split Tg (one g) Tout = true -> products_agree B S Tp p split Tg g Tout.
Proof.
  intros Cp Cg H F sz H0 Hs m1 m2 p1 p2 P1 P2 eB HS e1 e2 D1 D2.
  apply product_called in D1 as [A1 G1]; [|exact Cp]. apply product_called in D2 as [A2 G2]; [|exact Cg].
  destruct (@compare_sound _ _ _ _ _ _ _ _ H F sz H0 Hs m1 m2 p1 p2 P1 P2 eB e1 e2 HS A1 G1 A2 G2) as (r1 & r2 & R1 & R2 & V).
  exists r1, r2. split; [apply chain_product; assumption|]. split; [apply chain_product; assumption|exact V].
Qed.
Lemma ru_chain : forallb (fun t : string * sector * (prog * prog) * (prog * prog) => match t with (_, _, p, q) => chain_ok (fst p) (snd p) && chain_ok (fst q) (snd q) end) (restricted_unrestricted_products ++ unrestricted_general_products) = true.
Proof. vm_compute. reflexivity. Qed.
Lemma fitted_chain : forallb (fun t : string * spin_type * sector * (prog * prog) * (prog * prog) => match t with (_, _, _, p, q) => chain_ok (fst p) (snd p) && chain_ok (fst q) (snd q) end) (fitted_products ++ right_left) = true.
Proof. vm_compute. reflexivity. Qed.
Lemma ru_products name x p q : In (name, x, p, q) restricted_unrestricted_products ->
  products_agree (with_vector Restricted x) (with_vector_symmetries Restricted x) (first_vector Restricted x) p closed_split (closed_shell_arguments x) q (closed_shell_products x).
Proof.
  intros H. pose proof ru_chain as C. rewrite forallb_forall in C. specialize (C _ (in_or_app _ _ _ (or_introl H))). cbv beta iota in C. apply andb_prop in C as [C1 C2].
  apply compared; [exact C1|exact C2|]. pose proof all_ru_products as A. rewrite forallb_forall in A. apply (A _ H).
Qed.
Lemma ug_products name x p q : In (name, x, p, q) unrestricted_general_products ->
  products_agree (with_vector Unrestricted x) (with_vector_symmetries Unrestricted x) (first_vector Unrestricted x) p spin_split (spin_orbital_arguments x) q (spin_orbital_products x).
Proof.
  intros H. pose proof ru_chain as C. rewrite forallb_forall in C. specialize (C _ (in_or_app _ _ _ (or_intror H))). cbv beta iota in C. apply andb_prop in C as [C1 C2].
  apply compared; [exact C1|exact C2|]. pose proof all_ug_products as A. rewrite forallb_forall in A. apply (A _ H).
Qed.
Lemma df_products name s x p q : In (name, s, x, p, q) fitted_products ->
  products_agree (with_vector s x) (with_vector_symmetries s x) (fitting s ++ first_vector s x) q id_blocks (first_vector s x) p (same_products s x).
Proof.
  intros H. pose proof fitted_chain as C. rewrite forallb_forall in C. specialize (C _ (in_or_app _ _ _ (or_introl H))). cbv beta iota in C. apply andb_prop in C as [C1 C2].
  apply compared; [exact C2|exact C1|]. pose proof all_fitted_products as A. rewrite forallb_forall in A. apply (A _ H).
Qed.
Lemma adjoint_of name s x p q : In (name, s, x, p, q) right_left -> adjoint_products s x (first_vector s x) (second_vector s x) p q.
Proof.
  intros H F sz H0 m pa P eB HS e1 e2 D1 D2. pose proof fitted_chain as C. rewrite forallb_forall in C. specialize (C _ (in_or_app _ _ _ (or_intror H))). cbv beta iota in C. apply andb_prop in C as [C1 C2].
  apply product_called in D1 as D1'; [|exact C1]. apply product_called in D2 as D2'; [|exact C2].
  pose proof all_adjoint as A. rewrite forallb_forall in A. specialize (A _ H). cbv beta iota delta [check_adjoint] in A.
  destruct (@calls_sound _ _ _ _ A F sz H0 m pa P eB HS [e1; e2]) as (rs & R & V); [repeat constructor; [apply D1'|apply D1'|apply D2'|apply D2']|discriminate|].
  cbn [combine] in R. inversion R as [|? r1 ? rs1 R1 R' Ea Eb]; subst. inversion R' as [|? r2 ? rs2 R2 R'' Ec Ed]; subst. inversion R''; subst. cbn [fst snd] in R1, R2.
  exists r1, r2. split; [apply chain_product; assumption|]. split; [apply chain_product; assumption|]. cbv zeta.
  specialize (V _ (or_introl eq_refl) [] ltac:(constructor)). cbn [fst snd combine map] in V. apply (@value_minus F H0) in V. exact V.
Qed.
