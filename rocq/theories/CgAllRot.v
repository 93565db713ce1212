(** Rotations of the orbitals, for all translated functions. *)
From Coq Require Import List String Ring.
From Verif Require Import Base Alg ArrModel CgModel CgSpec CgProofs CgRot CgAll.
Import ListNotations.

Definition check_rot (p : prog) : bool :=
  match check rot_ops (init rot_ops (map (fun x => (fst x, (snd x, tt))) (p_in p)) PL) (p_body p) with
  | Some G => check_outs rot_ops (fun _ _ => true) G (p_out p)
  | None => false
  end.
Lemma generated_rot : forallb (fun q => check_rot (snd q)) generated = true.
Proof. vm_compute. reflexivity. Qed.

Lemma check_rot_sound p : check_rot p = true ->
  forall (F : fld) sz U, orthogonal F sz U ->
  forall method path (e : bool -> env F), (forall b, path_ok (path b)) -> (forall b, args_ok sz (p_in p) (e b)) ->
  (forall x cs, In (x, cs) (p_in p) -> forall idx, inb (map sz cs) idx -> tens F (e true x) idx = rotated F sz U cs (tens F (e false x)) idx) ->
  exists rs, (forall b, run (method b) (path b) sz p (e b) = Ok (rs b)) /\
    forall k x cs, nth_error (p_out p) k = Some (x, cs) -> forall idx, inb (map sz cs) idx ->
      entry F (rs true) k idx = rotated F sz U cs (entry F (rs false) k) idx.
Proof.
  unfold check_rot. destruct (check rot_ops _ _) as [G|] eqn:E; [|discriminate]. intros Eo F sz U HU method path e Hp Ha Hr.
  destruct (@run_ok F bool (fun _ => sz) rot_ops (rot_dom HU) method path Hp p (map (fun x => (fst x, (snd x, tt))) (p_in p))
              (fun _ _ => true) G e) as (rs & A & B).
  - intros x cs d Hx. apply in_map_iff in Hx as ([y ds] & Ey & Hy). injection Ey as <- <- <-. split.
    + intros b. apply (Ha b y ds Hy).
    + intros idx Hi. apply (Hr y ds Hy idx Hi).
  - exact E.
  - exact Eo.
  - exists rs. split; [intros b; apply A|]. intros k x cs Hk idx Hi. destruct (B k x cs Hk) as [_ (d & _ & R)]. apply (R idx Hi).
Qed.

(** Two runs: the original one and the rotated one. *)
Lemma generated_rotate (name : string) p : In (name, p) generated ->
  forall (F : fld) sz U, orthogonal F sz U ->
  forall method1 method2 path1 path2 (e1 e2 : env F), path_ok path1 -> path_ok path2 ->
  args_ok sz (p_in p) e1 -> args_ok sz (p_in p) e2 ->
  (forall x cs, In (x, cs) (p_in p) -> forall idx, inb (map sz cs) idx -> tens F (e2 x) idx = rotated F sz U cs (tens F (e1 x)) idx) ->
  exists r1 r2, run method1 path1 sz p e1 = Ok r1 /\ run method2 path2 sz p e2 = Ok r2 /\
    forall k x cs, nth_error (p_out p) k = Some (x, cs) -> forall idx, inb (map sz cs) idx ->
      entry F r2 k idx = rotated F sz U cs (entry F r1 k) idx.
Proof.
  intros H F sz U HU m1 m2 p1 p2 e1 e2 P1 P2 A1 A2 Hr.
  assert (Hc : check_rot p = true) by (pose proof generated_rot as G; rewrite forallb_forall in G; apply (G _ H)).
  destruct (check_rot_sound p Hc F sz U HU (fun b : bool => if b then m2 else m1) (fun b : bool => if b then p2 else p1) (fun b : bool => if b then e2 else e1))
    as (rs & A & B); [intros []; assumption|intros []; assumption|exact Hr|].
  exists (rs false), (rs true). split; [apply (A false)|]. split; [apply (A true)|]. exact B.
Qed.

Lemma generated_invariant (name : string) p : In (name, p) generated ->
  forall (F : fld) sz U, orthogonal F sz U ->
  forall method1 method2 path1 path2 (e1 e2 : env F), path_ok path1 -> path_ok path2 ->
  args_ok sz (p_in p) e1 -> args_ok sz (p_in p) e2 ->
  (forall x cs, In (x, cs) (p_in p) -> forall idx, inb (map sz cs) idx -> tens F (e2 x) idx = rotated F sz U cs (tens F (e1 x)) idx) ->
  exists r1 r2, run method1 path1 sz p e1 = Ok r1 /\ run method2 path2 sz p e2 = Ok r2 /\
    forall k x, nth_error (p_out p) k = Some (x, []) -> entry F r2 k [] = entry F r1 k [].
Proof.
  intros H F sz U HU m1 m2 p1 p2 e1 e2 P1 P2 A1 A2 Hr.
  destruct (@generated_rotate name p H F sz U HU m1 m2 p1 p2 e1 e2 P1 P2 A1 A2 Hr) as (r1 & r2 & E1 & E2 & R).
  exists r1, r2. split; [exact E1|]. split; [exact E2|]. intros k x Hk. rewrite (R k x [] Hk []) by constructor.
  rewrite rotated_rot by reflexivity. reflexivity.
Qed.
