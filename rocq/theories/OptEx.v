(** Concrete cases for Brueckner orbitals. *)
From Coq Require Import String ZArith QArith_base.
From Coq Require Qcanon.
From Verif Require Import Base ListAux Alg ArrModel ArrProofs PermModel EinsumModel EinPathModel EinPathSpec EinPathParse SpaceModel SpaceSpec AnsatzModel AnsatzRanks VecModel CcModel CcEx ExtModel
  OptModel OptSpec OptOrb.
Local Open Scope string_scope.
Local Open Scope list_scope.
Local Open Scope nat_scope.

(** numpy's path with everything contracted at once. *)
Definition all_at_once (subs : list (list nat)) (out : list nat) (_ : list (arr Qc_fld)) : list contraction :=
  [mkcon (map (fun _ => 0) subs) (map (map letter_of) subs) (map letter_of out)].
Lemma all_at_once_proper : proper_paths all_at_once.
Proof. intros subs out ops. unfold all_at_once. rewrite <- (map_map (map letter_of) (fun _ => 0) subs). apply naive_path. Qed.

(** One occupied and one virtual orbital, and a frozen virtual in one of the two spaces. *)
Definition opt_frozen := mkspace [true; false; false] [false; false; true] [false; false; false].
Definition opt_full := mkspace [true; false; false] [false; false; false] [false; false; false].
Definition opt_ansatz := mka (str "CCSD") [] 0 0 false.
Definition opt_fs : list entry := [(str "t1", str "ov", 1); (str "t2", str "oovv", 2)].
Definition opt_u : arr Qc_fld := mkarr [3; 3] (qs [2; 1; 0; 0; 1; 3; 1; 0; 1]%Z).
Definition opt_amps : dict pystr (tval Qc_fld) := [(str "t1", VArr (mkarr [1; 2] (qs [1; 2]%Z))); (str "t2", VArr (mkarr [1; 1; 2; 2] (qs [1; 2; 2; 3]%Z)))].
Lemma opt_amps_fit name key n : In (name, key, n) opt_fs -> (1 <= n <= 13) /\
  exists x, dget pystr_eq_dec name opt_amps = Some (VArr x) /\ wf x /\ shp x = repeat (ncocc opt_full) n ++ repeat (ncvir opt_full) n.
Proof. intros [E|[E|[]]]; injection E as <- <- <-; (split; [lia|]); (eexists; split; [vm_compute; reflexivity|]); split; vm_compute; reflexivity. Qed.
Lemma opt_nodup : NoDup (map (fun e : entry => fst (fst e)) opt_fs).
Proof. repeat constructor; vm_compute; intuition discriminate. Qed.
Definition opt_ub : arr Qc_fld := mkarr [2; 2] (qs [3; 1; 1; 5]%Z).
Definition opt_uamps : dict pystr (tval Qc_fld) :=
  [(str "t1", VSpin [(str "aa", mkarr [1; 2] (qs [1; 2]%Z)); (str "bb", mkarr [1; 1] (qs [7]%Z))]);
   (str "t2", VSpin [(str "aaaa", mkarr [1; 1; 2; 2] (qs [0; 2; -2; 0]%Z)); (str "abab", mkarr [1; 1; 2; 1] (qs [3; 4]%Z)); (str "bbbb", mkarr [1; 1; 1; 1] (qs [5]%Z))])].
Lemma opt_uamps_fit name key n : In (name, key, n) opt_fs -> (1 <= n <= 13) /\ exists xs, dget pystr_eq_dec name opt_uamps = Some (VSpin xs) /\
  forall comb, In comb (generate_spin_combinations n false true) -> exists x, dget pystr_eq_dec comb xs = Some x /\ wf x /\
    shp x = spin_dims (ncocc opt_full) (ncvir opt_full) (ncocc opt_frozen) (ncvir opt_frozen) n comb.
Proof.
  intros [E|[E|[]]]; injection E as <- <- <-; (split; [lia|]); (eexists; split; [vm_compute; reflexivity|]); intros comb H; vm_compute in H.
  - destruct H as [<-|[<-|[]]]; (eexists; split; [vm_compute; reflexivity|]; split; vm_compute; reflexivity).
  - destruct H as [<-|[<-|[<-|[]]]]; (eexists; split; [vm_compute; reflexivity|]; split; vm_compute; reflexivity).
Qed.

(** Matrix functions which turn two correlated orbitals by the angle of a 3-4-5 triangle whenever the generator is not zero. *)
Definition frac (a : Z) (b : positive) : Qc_fld := Qcanon.Q2Qc (a # b).
Definition triangle : arr Qc_fld := mkarr [2; 2] [frac 3 5; frac (-4) 5; frac 4 5; frac 3 5].
Definition side (a : arr Qc_fld) : nat := nth 0 (shp a) 0.
Definition turns (a : arr Qc_fld) : bool := (side a =? 2) && negb (Qeq_bool (Qcanon.this (aget r0 a [0; 1])) 0).
Definition opt_exp (a : arr Qc_fld) : arr Qc_fld := if turns a then triangle else eye Qc_fld (side a).
Definition opt_log (u : arr Qc_fld) : arr Qc_fld :=
  if turns u then mkarr [2; 2] (qs [0; -1; 1; 0]%Z) else zeros (F := Qc_fld) [side u; side u].
Definition opt_det (_ : arr Qc_fld) : bool := false.
Lemma triangle_orthogonal : orthogonal 2 triangle.
Proof.
  split; [split; vm_compute; reflexivity|]. intros i j Hi Hj.
  assert (C : forall x y : Qc_fld, Qeq_bool (Qcanon.this x) (Qcanon.this y) = true -> x = y) by (intros x y H; apply Qcanon.Qc_is_canon, Qeq_bool_eq, H).
  destruct i as [|[|i]]; [| |lia]; (destruct j as [|[|j]]; [| |lia]); apply C; vm_compute; reflexivity.
Qed.
Lemma opt_functions : matrix_functions opt_exp opt_log opt_det.
Proof.
  split.
  - intros n a [[_ S] _]. unfold opt_exp, turns, side. rewrite S. cbn [nth]. destruct (n =? 2) eqn:E; cbn [andb].
    + apply Nat.eqb_eq in E. subst n. destruct (negb _); [apply triangle_orthogonal|apply eye_orthogonal].
    + apply eye_orthogonal.
  - reflexivity.
  - intros n u [[_ S] _] _. unfold opt_log, turns, side. rewrite S. cbn [nth].
    assert (Z : antisymmetric n (zeros (F := Qc_fld) [n; n])).
    { assert (W : wf (zeros (F := Qc_fld) [n; n])) by (unfold wf, zeros, full; cbn [shp dat]; apply repeat_length).
      split; [split; [exact W|reflexivity]|]. intros i j _ _. unfold el, zeros, full, aget. cbn [dat shp]. rewrite !nth_repeat. apply Qcanon.Qc_is_canon. reflexivity. }
    destruct (n =? 2) eqn:E; cbn [andb]; [|exact Z]. apply Nat.eqb_eq in E. subst n. destruct (negb _); [|exact Z].
    split; [split; reflexivity|]. intros i j Hi Hj. destruct i as [|[|i]]; [| |lia]; (destruct j as [|[|j]]; [| |lia]); vm_compute; apply Qcanon.Qc_is_canon; reflexivity.
  - discriminate.
Qed.
Lemma opt_determinants : proper_determinants opt_exp opt_det.
Proof. split; reflexivity. Qed.
Definition opt_plain (_ : unit) (a _ : arr Qc_fld) : result (unit * arr Qc_fld) := Ok (tt, a).
Lemma opt_plain_ok P : accelerator opt_plain P (fun _ => True).
Proof. intros d a e _ H. exists tt, a. split; [reflexivity|]. split; [exact I|exact H]. Qed.
Definition opt_mo : arr Qc_fld := mkarr [3; 3] (qs [1; 0; 0; 0; 1; 0; 0; 0; 1]%Z).
Lemma opt_frozen_accepted : accepted opt_frozen.
Proof. exists [true; false; false], [false; false; true], [false; false; false]. vm_compute. reflexivity. Qed.
Lemma opt_full_accepted : accepted opt_full.
Proof. exists [true; false; false], [false; false; false], [false; false; false]. vm_compute. reflexivity. Qed.
Definition opt_t1 (n : nat) (z : Z) : arr Qc_fld := mkarr [1; n] (qs (repeat z n)).

(** A loop over plain numbers: the calculation always gives correlation energy -5 and no single amplitudes; the mean-field
    energy goes up by [step] per cycle. *)
Definition num_solve (_ : Z) (a : Z) : result (Z * Z * bool) := Ok (a, -5, true)%Z.
Definition num_rotation (_ : Z) (_ : option unit) (_ : unit) : result (unit * unit * unit) := Ok (tt, tt, tt).
Definition num_update (_ : unit) (m _ : Z) : result Z := Ok (m + 1)%Z.
Definition num_transform (_ : unit) (a : Z) : result Z := Ok a.
Definition num_energy (step : Z) (m : Z) : result Z := Ok (step * m)%Z.
Definition num_norm (a : Z) : result Z := Ok (Z.abs a).
Definition num_kernel (step : Z) (o : boptions Z) :=
  @kernel Z Z unit unit Z Z.ltb (fun x y => Z.abs (x - y)) Z.add num_solve num_rotation (@Ok Z) num_update (num_energy step) num_transform num_norm true tt o.
Definition num_cycle (step : Z) := @cycle Z Z unit unit Z (fun x y => Z.abs (x - y)) Z.add num_solve num_rotation num_update (num_energy step) num_transform num_norm true.
Definition num_start (amp : Z) := mkcalc (A := Z) (M := Z) (R := Z) amp (-5)%Z true 0%Z 0%Z true.
