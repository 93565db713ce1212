(** Exact scalar arithmetic used in place of floating point: an arbitrary
    commutative ring / field, as records so that theorems quantify over all of
    them.  Instances: Z (ring) and the canonical rationals Qc (field). *)
From Coq Require Import List Permutation Ring Field ZArith Qcanon.
From Coq Require Import Ring_theory Field_theory.
Import ListNotations.

Record rng := Rng {
  car :> Type;
  r0 : car; r1 : car;
  radd : car -> car -> car;
  rmul : car -> car -> car;
  rsub : car -> car -> car;
  ropp : car -> car;
  rth : ring_theory r0 r1 radd rmul rsub ropp (@eq car)
}.
Arguments r0 {r}. Arguments r1 {r}.
Arguments radd {r} _ _. Arguments rmul {r} _ _. Arguments rsub {r} _ _. Arguments ropp {r} _.

Record fld := Fld {
  frng :> rng;
  fdiv : frng -> frng -> frng;
  finv : frng -> frng;
  fth : field_theory (@r0 frng) (@r1 frng) (@radd frng) (@rmul frng) (@rsub frng) (@ropp frng)
          fdiv finv (@eq frng)
}.
Arguments fdiv {f} _ _. Arguments finv {f} _.

Declare Scope rng_scope.
Delimit Scope rng_scope with rg.
Notation "0" := r0 : rng_scope.
Notation "1" := r1 : rng_scope.
Infix "+" := radd : rng_scope.
Infix "*" := rmul : rng_scope.
Infix "-" := rsub : rng_scope.
Notation "- x" := (ropp x) : rng_scope.
Infix "/" := fdiv : rng_scope.

Definition Z_rng : rng := Rng _ _ _ _ _ _ _ Zth.
Definition Qc_rng : rng := Rng _ _ _ _ _ _ _ (F_R Qcft).
Definition Qc_fld : fld := Fld Qc_rng _ _ Qcft.

(** Sum of a list of scalars. *)
Definition rsum {K : rng} (l : list K) : K := fold_right radd r0 l.
(** Product of a list of scalars. *)
Definition rprod {K : rng} (l : list K) : K := fold_right rmul r1 l.
(** Embedding of the naturals and integers. *)
Fixpoint rnat {K : rng} (n : nat) : K := match n with O => r0 | S m => radd r1 (rnat m) end.
Definition rZ {K : rng} (z : Z) : K :=
  match z with Z0 => r0 | Zpos p => rnat (Pos.to_nat p) | Zneg p => ropp (rnat (Pos.to_nat p)) end.
Fixpoint rpow {K : rng} (x : K) (n : nat) : K := match n with O => r1 | S m => rmul x (rpow x m) end.
(** A sign: [true] means minus. *)
Definition rsign {K : rng} (neg : bool) (x : K) : K := if neg then ropp x else x.

Section Lemmas.
  Variable K : rng.
  Add Ring Kring : (rth K).
  Local Open Scope rng_scope.

  Lemma rsum_cons (x : K) l : rsum (x :: l) = x + rsum l.
  Proof. reflexivity. Qed.

  Lemma rsum_app (l1 l2 : list K) : rsum (l1 ++ l2) = rsum l1 + rsum l2.
  Proof.
    induction l1 as [|x l1 IH]; cbn [app].
    - change (rsum (K:=K) []) with (@r0 K). ring.
    - rewrite !rsum_cons, IH. ring.
  Qed.

  Lemma rsum_perm (l1 l2 : list K) : Permutation l1 l2 -> rsum l1 = rsum l2.
  Proof.
    induction 1 as [| x l1 l2 _ IH | x y l | l1 l2 l3 _ IH1 _ IH2].
    - reflexivity.
    - rewrite !rsum_cons, IH. reflexivity.
    - rewrite !rsum_cons. ring.
    - congruence.
  Qed.

  Lemma rsum_map_ext {A} (f g : A -> K) l : (forall x, In x l -> f x = g x) -> rsum (map f l) = rsum (map g l).
  Proof. intros H. rewrite (map_ext_in f g l H). reflexivity. Qed.

  Lemma rsum_map_add {A} (f g : A -> K) l :
    rsum (map (fun x => f x + g x) l) = rsum (map f l) + rsum (map g l).
  Proof. induction l as [|x l IH]; cbn [map]; [cbn; ring|]. rewrite !rsum_cons, IH. ring. Qed.

  Lemma rsum_map_mul_l {A} (c : K) (f : A -> K) l :
    rsum (map (fun x => c * f x) l) = c * rsum (map f l).
  Proof. induction l as [|x l IH]; cbn [map]; [cbn; ring|]. rewrite !rsum_cons, IH. ring. Qed.

  Lemma rsum_map_mul_r {A} (c : K) (f : A -> K) l :
    rsum (map (fun x => f x * c) l) = rsum (map f l) * c.
  Proof. induction l as [|x l IH]; cbn [map]; [cbn; ring|]. rewrite !rsum_cons, IH. ring. Qed.

  Lemma rsum_map_opp {A} (f : A -> K) l :
    rsum (map (fun x => - f x) l) = - rsum (map f l).
  Proof. induction l as [|x l IH]; cbn [map]; [cbn; ring|]. rewrite !rsum_cons, IH. ring. Qed.

  Lemma rsum_map_0 {A} (f : A -> K) l : (forall x, In x l -> f x = 0) -> rsum (map f l) = 0.
  Proof.
    induction l as [|x l IH]; intros H; [reflexivity|]. cbn [map]. rewrite rsum_cons.
    rewrite (H x (or_introl eq_refl)), IH; [ring|]. intros y Hy; apply H; right; exact Hy.
  Qed.

  Lemma rsum_flat_map {A B} (f : B -> K) (g : A -> list B) l :
    rsum (map f (flat_map g l)) = rsum (map (fun x => rsum (map f (g x))) l).
  Proof.
    induction l as [|x l IH]; [reflexivity|]. cbn [flat_map map].
    rewrite map_app, rsum_app, rsum_cons, IH. reflexivity.
  Qed.

  Lemma rsum_swap {A B} (f : A -> B -> K) la lb :
    rsum (map (fun a => rsum (map (f a) lb)) la) = rsum (map (fun b => rsum (map (fun a => f a b) la)) lb).
  Proof.
    induction la as [|a la IH]; cbn [map].
    - symmetry. apply rsum_map_0. reflexivity.
    - rewrite rsum_cons, IH, <- rsum_map_add. apply rsum_map_ext. reflexivity.
  Qed.

  Lemma rsum_const (c : K) {A} (l : list A) : rsum (map (fun _ => c) l) = rnat (length l) * c.
  Proof. induction l as [|x l IH]; cbn [map length rnat]; [cbn; ring|]. rewrite rsum_cons, IH. ring. Qed.

  Lemma rnat_add n m : @rnat K (n + m) = rnat n + rnat m.
  Proof. induction n as [|n IH]; cbn; [ring|rewrite IH; ring]. Qed.

  Lemma rnat_mul n m : @rnat K (n * m) = rnat n * rnat m.
  Proof. induction n as [|n IH]; cbn; [ring|rewrite rnat_add, IH; ring]. Qed.

  Lemma rpow_add (x : K) n m : rpow x (n + m) = rpow x n * rpow x m.
  Proof. induction n as [|n IH]; cbn; [ring|rewrite IH; ring]. Qed.

  Lemma rsign_opp b (x : K) : rsign (negb b) x = - rsign b x.
  Proof. destruct b; cbn; ring. Qed.

  Lemma rsign_xorb a b (x : K) : rsign (xorb a b) x = rsign a (rsign b x).
  Proof. destruct a, b; cbn; ring. Qed.

  Lemma rsign_inv b (x : K) : rsign b (rsign b x) = x.
  Proof. destruct b; cbn; ring. Qed.

  Lemma rsign_0 b : rsign b (@r0 K) = 0.
  Proof. destruct b; cbn; ring. Qed.
End Lemmas.
