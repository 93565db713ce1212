(** Concrete cases for the theorems on the equation-of-motion solvers. *)
From Coq Require Import ZArith QArith String Sorted.
From Verif Require Import Base ListAux Alg ArrModel PermModel SpaceModel AnsatzModel VecModel VecSpec CcModel CcSpec CcEx DavSpec DavEx EomModel EomSpec.
Set Implicit Arguments.
Local Open Scope string_scope.
Local Open Scope list_scope.
Local Open Scope nat_scope.

(** A closed shell with two occupied orbitals of energies -3 and -2 and a virtual one of energy 5, in the
    three representations. *)
Definition exe_ansatz := mka (str "CCSD") [] 0 0 false.
Definition exe_sz (k : nat) : nat := if k =? chr_of "v" then 1 else 2.
Definition exe_fock (key : pystr) : result (arr Qc_fld) :=
  if streqb key (str "oo") then Ok (mkarr [2; 2] (qs [-3; 1; 1; -2]%Z))
  else if streqb key (str "vv") then Ok (mkarr [1; 1] (qs [5]%Z)) else Err KeyError.
Definition exe_eps (k i : nat) : Qc_fld := match exe_fock [k; k] with Ok f => aget r0 f [i; i] | Err _ => r0 end.
Definition exe_r : cc Qc_fld := mkcc Qc_fld exe_ansatz ex_space exe_fock (fun _ => Err KeyError) None None None None false.
Definition exe_u : ucc Qc_fld := mkucc Qc_fld exe_ansatz ex_space ex_space (fun _ => exe_fock) (fun _ _ => Err KeyError) None None None None false.
Definition exg_space := mkspace [true; true; true; true; false; false] (repeat false 6) (repeat false 6).
Definition exg_fock (key : pystr) : result (arr Qc_fld) :=
  if streqb key (str "oo") then Ok (mkarr [4; 4] (qs [-3; 0; 1; 0; 0; -3; 0; 1; 1; 0; -2; 0; 0; 1; 0; -2]%Z))
  else if streqb key (str "vv") then Ok (mkarr [2; 2] (qs [5; 0; 0; 5]%Z)) else Err KeyError.
Definition exe_g : cc Qc_fld := mkcc Qc_fld exe_ansatz exg_space exg_fock (fun _ => Err KeyError) None None None None false.
Definition exg_sz (k : nat) : nat := 2 * exe_sz k.
Definition exg_eps (k i : nat) : Qc_fld := match exg_fock [k; k] with Ok f => aget r0 f [i; i] | Err _ => r0 end.
Definition exe_fs (x : sector) : list entry :=
  match x with
  | IP => [(str "r1", str "o", 1); (str "r2", str "oov", 2)]
  | EA => [(str "r1", str "v", 1); (str "r2", str "vvo", 2)]
  | EE => [(str "r1", str "ov", 1); (str "r2", str "oovv", 2)]
  end.
Lemma exe_exc rspin x : excitations exe_ansatz rspin x (exe_fs x).
Proof.
  split; [destruct rspin, x; vm_compute; reflexivity|]. split; [destruct x; discriminate|]. split; [|split; [destruct x; reflexivity|left; reflexivity]].
  destruct x; repeat constructor; cbn [In map exe_fs fst snd]; intros H; repeat (destruct H as [H|H]); try discriminate H; try contradiction.
Qed.
Lemma exe_adapted x : adapted x (exe_fs x).
Proof. intros name key n H. left. destruct x; repeat (destruct H as [H|H]; [injection H as <- <- <-; lia|]); destruct H. Qed.
Lemma exe_letter x name key n k : In (name, key, n) (exe_fs x) -> In k key -> k = chr_of "o" \/ k = chr_of "v".
Proof.
  intros H Hk. destruct x; cbn [exe_fs In] in H; (destruct H as [H|[H|[]]]; injection H as <- <- <-; cbn in Hk; decompose [or] Hk; subst; try contradiction; auto).
Qed.
Lemma exe_known_r x : known_energies exe_r (exe_fs x) exe_sz exe_eps.
Proof.
  intros name key n k H Hk. destruct (exe_letter _ _ _ _ _ H Hk) as [-> | ->]; (split; [|vm_compute; reflexivity]); unfold class_energies; cbn [cc_omega cc_fock exe_r];
    (match goal with |- if ?b then _ else _ => replace b with false by reflexivity end); eexists; (split; [reflexivity|]); (split; [reflexivity|]); (split; [reflexivity|]); intros i; reflexivity.
Qed.
Lemma exe_known_g x : known_energies exe_g (exe_fs x) exg_sz exg_eps.
Proof.
  intros name key n k H Hk. destruct (exe_letter _ _ _ _ _ H Hk) as [-> | ->]; (split; [|vm_compute; reflexivity]); unfold class_energies; cbn [cc_omega cc_fock exe_g];
    (match goal with |- if ?b then _ else _ => replace b with false by reflexivity end); eexists; (split; [reflexivity|]); (split; [reflexivity|]); (split; [reflexivity|]); intros i; reflexivity.
Qed.
Lemma exe_known_u x : u_known_energies exe_u (exe_fs x) (fun k _ => exe_sz k) (fun k _ => exe_eps k).
Proof.
  intros name key n k s H Hk _. cbn [u_fock exe_u u_alpha u_beta]. replace (if s =? chr_of "a" then ex_space else ex_space) with ex_space by (destruct (s =? chr_of "a"); reflexivity).
  exact (exe_known_r x _ _ _ _ H Hk).
Qed.
Lemma exe_spatial k j : j < exg_sz k -> j / 2 < exe_sz k /\ exg_eps k j = exe_eps k (j / 2).
Proof.
  intros H. split; [apply Nat.div_lt_upper_bound; [lia|exact H]|]. destruct (Nat.eq_dec k (chr_of "o")) as [->|N1].
  - change (exg_sz _) with 4 in H. do 4 (destruct j as [|j]; [apply qeqb_eq; vm_compute; reflexivity|]). lia.
  - destruct (Nat.eq_dec k (chr_of "v")) as [->|N2].
    + change (exg_sz _) with 2 in H. do 2 (destruct j as [|j]; [apply qeqb_eq; vm_compute; reflexivity|]). lia.
    + unfold exg_eps, exe_eps, exg_fock, exe_fock. assert (X : forall c, k <> c -> streqb [k; k] [c; c] = false).
      { intros c N. unfold streqb. destruct (pystr_eq_dec [k; k] [c; c]) as [E|E]; [congruence|reflexivity]. }
      change (str "oo") with [chr_of "o"; chr_of "o"]. change (str "vv") with [chr_of "v"; chr_of "v"]. rewrite !X by assumption. reflexivity.
Qed.

Definition qhead (r : result (list Qc_fld)) (z : Z) : bool := match r with Ok (v :: _) => qeqb v (q z) | _ => false end.
Lemma qhead_ok r z : qhead r z = true -> exists v, r = Ok v /\ v <> [] /\ hd r0 v = q z.
Proof. destruct r as [[|v l]|]; cbn [qhead]; intros H; try discriminate H. exists (v :: l). split; [reflexivity|]. split; [discriminate|apply qeqb_eq, H]. Qed.
Lemma diag_heads : qhead (r_diag exe_r EA) (-5) && qhead (g_diag exe_g EA) 5 && qhead (u_diag exe_u EA) 5 &&
  qhead (r_diag exe_r EE) 8 && qhead (g_diag exe_g EE) 8 && qhead (u_diag exe_u EE) (-8) &&
  qhead (r_diag exe_r IP) (-3) && qhead (g_diag exe_g IP) (-3) && qhead (u_diag exe_u IP) (-3) = true.
Proof. vm_compute. reflexivity. Qed.

(** The unrestricted CCSD ionisation vector of ten ones. *)
Definition qlist_eqb (a b : list Qc_fld) : bool := (length a =? length b) && forallb (fun p => qeqb (fst p) (snd p)) (combine a b).
Definition checked {A} (r : result A) (f : A -> result (list Qc_fld)) (v : list Qc_fld) : bool :=
  match r with Ok a => match f a with Ok w => negb (qeqb (nth 4 w r0) (nth 4 v r0)) | Err _ => false end | Err _ => false end.
Lemma checked_ok {A} (r : result A) f v : checked r f v = true -> exists a w, r = Ok a /\ f a = Ok w /\ w <> v.
Proof.
  unfold checked. destruct r as [a|e]; [|intros H; discriminate H]. destruct (f a) as [w|e] eqn:E; intros H; [|discriminate H]. exists a, w. split; [reflexivity|]. split; [exact E|].
  intros ->. unfold qeqb in H. rewrite (proj2 (Qeq_bool_iff _ _) (Qeq_refl _)) in H. discriminate H.
Qed.
Definition ones := qs (repeat 1%Z 14).
Lemma ones_changed : checked (u_eom_from_vector Qc_fld exe_ansatz ex_space ex_space IP ones) (u_eom_to_vector Qc_fld exe_ansatz ex_space ex_space IP) ones = true.
Proof. vm_compute. reflexivity. Qed.

(** Guesses. *)
Lemma qguess_ok (r : result (list (list Qc_fld))) n : (match r with Ok g => length g =? n | Err _ => false end) = true -> exists g, r = Ok g /\ length g = n.
Proof. destruct r as [g|]; intros H; [|discriminate H]. exists g. split; [reflexivity|apply Nat.eqb_eq, H]. Qed.
Lemma koopmans_fewer : (match get_guesses Qc_fld qlt IP (Some 1) 3 (qs [2; 5; 4; 7]%Z) with Ok g => length g =? 1 | Err _ => false end) = true.
Proof. vm_compute. reflexivity. Qed.
