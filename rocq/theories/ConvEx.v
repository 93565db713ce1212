(** Concrete amplitudes and multipliers for the conversions. *)
From Coq Require Import String List ZArith QArith Qcanon Permutation Lia.
From Verif Require Import Base Alg ArrModel ArrProofs PermModel TensorModel AnsatzModel ConvModel ConvSpec ConvNames EinsumModel
  CgModel CgSpec CgFormSpec CgProofs CgBuild CgNames CgTables CgPairs CgAgree CgOrderSpec CgEx CgAgreeEx.
Import ListNotations.
Local Open Scope nat_scope. Local Open Scope list_scope.
Set Implicit Arguments.

(** The ansatz called [n]. *)
Definition ansatz_of (n : string) : ansatz := match from_string (str n) false with Ok a => a | Err _ => mka [] [] 0 0 false end.
Definition check_sd (a : ansatz) : bool :=
  match fermionic_cluster_ranks a false Wt, bosonic_cluster_ranks a Wt with
  | Ok fr, Ok br =>
      forallb (fun e => existsb (fun e' => if pystr_eq_dec (fst (fst e)) (fst (fst e')) then if pystr_eq_dec (snd (fst e)) (snd (fst e')) then (snd e =? snd e') else false else false) [(str "t1", str "ov", 1); (str "t2", str "oovv", 2)]) fr &&
      forallb (fun e => existsb (fun e' => if pystr_eq_dec (fst (fst e)) (fst (fst e')) then if pystr_eq_dec (snd (fst e)) (snd (fst e')) then (snd e =? snd e') else false else false) [(str "s1", str "b", 1); (str "s2", str "bb", 2)]) br &&
      (frank a <=? 1) && (brank a <=? 2)
  | _, _ => false
  end.
Lemma check_incl (l l' : list AnsatzModel.entry) :
  forallb (fun e => existsb (fun e' => if pystr_eq_dec (fst (fst e)) (fst (fst e')) then if pystr_eq_dec (snd (fst e)) (snd (fst e')) then (snd e =? snd e') else false else false) l') l = true -> incl l l'.
Proof.
  rewrite forallb_forall. intros H [[n k] r] He. specialize (H _ He). apply existsb_exists in H as ([[n' k'] r'] & I & E). cbn [fst snd] in E.
  destruct (pystr_eq_dec n n') as [->|]; [|discriminate]. destruct (pystr_eq_dec k k') as [->|]; [|discriminate]. apply Nat.eqb_eq in E as ->. exact I.
Qed.
Lemma check_sd_ok a : check_sd a = true -> singles_doubles a.
Proof.
  unfold check_sd, singles_doubles. destruct (fermionic_cluster_ranks a false Wt) as [fr|]; [|discriminate]. destruct (bosonic_cluster_ranks a Wt) as [br|]; [|discriminate].
  intros H. apply andb_prop in H as [H H4]. apply andb_prop in H as [H H3]. apply andb_prop in H as [H1 H2]. exists fr, br. split; [reflexivity|]. split; [exact (check_incl _ _ H1)|].
  split; [reflexivity|]. split; [exact (check_incl _ _ H2)|]. split; apply Nat.leb_le; assumption.
Qed.
(** Every ansatz without triple excitations. *)
Definition sd_names : list string :=
  ["CCD"; "CCSD"; "CC2"; "LCCD"; "LCCSD"; "QCISD"; "DCD"; "DCSD"; "CCSD-S-1-1"; "CCSD-SD-1-1"; "CCSD-SD-1-2"]%string.
Lemma sd_all n : In n sd_names -> from_string (str n) false = Ok (ansatz_of n) /\ singles_doubles (ansatz_of n).
Proof. cbn [sd_names In]. intros H. repeat (destruct H as [<-|H]; [split; [reflexivity|apply check_sd_ok; vm_compute; reflexivity]|]). destruct H. Qed.

Definition sd : ansatz := ansatz_of "CCSD-SD-1-2".

(** * Restricted *)
Definition ex_restricted : env Qc_fld := ex_basis closed_sz spatial_symmetries spatial.
Definition entries (e : env Qc_fld) (l : list (ref * string)) : dict pystr (arr Qc_fld) :=
  flat_map (fun p => match e (fst p) with Some v => [(str (snd p), v)] | None => [] end) l.
Definition ex_ramps (lams : bool) : dict pystr (arr Qc_fld) := entries ex_restricted (plain_names lams).
Lemma spatial_nodup : NoDup (map fst spatial). Proof. apply nodup_names_ok. vm_compute. reflexivity. Qed.
Lemma spin_blocks_nodup : NoDup (map fst spin_blocks). Proof. apply nodup_names_ok. vm_compute. reflexivity. Qed.

Lemma ex_ramps_ok : restricted_amplitudes closed_sz ex_ramps ex_restricted.
Proof.
  split.
  - intros lams x name H. destruct lams; cbn [plain_names In] in H; repeat (destruct H as [H|H]; [injection H as <- <-; vm_compute; reflexivity|]); destruct H.
  - intros x cs tn Hx E. unfold ex_restricted in E. rewrite (@ex_basis_in closed_sz spatial_symmetries spatial x cs spatial_nodup Hx) in E. injection E as <-. split; [apply tab_wf|reflexivity].
Qed.
Lemma ex_ramps_all lams x nm : In (x, nm) (plain_names lams) -> exists tn, ex_restricted x = Some tn.
Proof.
  intros H. assert (I : exists cs, In (x, cs) spatial).
  { destruct lams; cbn [plain_names In] in H; repeat (destruct H as [H|H]; [injection H as <- <-; eexists; mem|]); destruct H. }
  destruct I as (cs & I). eexists. exact (@ex_basis_in closed_sz spatial_symmetries spatial x cs spatial_nodup I).
Qed.

(** * Unrestricted *)
Definition ex_unrestricted : env Qc_fld := ex_basis spin_sz spin_blocks_symmetries spin_blocks.
Definition group (e : env Qc_fld) (name : string) (l : list (ref * (string * option string))) : dict pystr (arr Qc_fld) :=
  flat_map (fun p => if string_dec (fst (snd p)) name then match e (fst p), snd (snd p) with Some v, Some c => [(str c, v)] | _, _ => [] end else []) l.
Definition ex_uamps (lams : bool) : dict pystr (uamp Qc_fld) :=
  flat_map (fun p : ref * (string * option string) =>
    match snd (snd p) with
    | None => match ex_unrestricted (fst p) with Some v => [(str (fst (snd p)), Whole Qc_fld v)] | None => [] end
    | Some _ => [(str (fst (snd p)), Spin Qc_fld (group ex_unrestricted (fst (snd p)) (block_names lams)))]
    end) (block_names lams).
Lemma ex_uamps_ok : unrestricted_amplitudes spin_sz ex_uamps ex_unrestricted.
Proof.
  split.
  - intros lams x name comb H. destruct lams; cbn [block_names In] in H; repeat (destruct H as [H|H]; [injection H as <- <- <-; vm_compute; reflexivity|]); destruct H.
  - intros x cs tn Hx E. unfold ex_unrestricted in E. rewrite (@ex_basis_in spin_sz spin_blocks_symmetries spin_blocks x cs spin_blocks_nodup Hx) in E. injection E as <-. split; [apply tab_wf|reflexivity].
Qed.
Lemma ex_uamps_all lams x nm : In (x, nm) (block_names lams) -> exists tn, ex_unrestricted x = Some tn.
Proof.
  intros H. assert (I : exists cs, In (x, cs) spin_blocks).
  { destruct lams; cbn [block_names In] in H; repeat (destruct H as [H|H]; [injection H as <- <-; eexists; mem|]); destruct H. }
  destruct I as (cs & I). eexists. exact (@ex_basis_in spin_sz spin_blocks_symmetries spin_blocks x cs spin_blocks_nodup I).
Qed.
(** Interleaved spin orbitals: alpha, beta, alpha (occupied); beta, alpha, alpha, beta (virtual). *)
Definition ex_slices (s k : nat) : list nat :=
  if k =? chr_of "o" then (if s =? ch_a then [0; 2] else [1]) else (if s =? ch_a then [1; 2] else [0; 3]).
Definition ex_size (k : nat) : nat := if k =? chr_of "o" then 3 else 4.
Lemma ex_slices_ok : spin_slices spin_sz ex_slices ex_size.
Proof.
  assert (P1 : Permutation [0; 2; 1] [0; 1; 2]) by (apply perm_skip, perm_swap).
  assert (P2 : Permutation [1; 2; 0; 3] [0; 1; 2; 3]).
  { eapply perm_trans; [apply perm_skip, perm_swap|]. apply perm_swap. }
  split; [exact P1|]. split; [exact P2|]. repeat split; reflexivity.
Qed.

(** * Triples *)
Definition eps2 (i j : nat) : Qc_fld := match i, j with 0, 1 => r1 | 1, 0 => ropp r1 | _, _ => r0 end.
(** A restricted amplitude: alpha, beta, alpha; antisymmetric in the two alpha electrons. *)
Definition ex_t3 : arr Qc_fld :=
  tab [2; 2; 2; 2; 2; 2] (fun idx => match idx with [i; j; k; a; b; c] => rmul (rmul (eps2 i k) (eps2 a c)) (if j =? b then r1 else r0) | _ => r0 end).
Definition ex_triples : dict pystr (arr Qc_fld) := [(str "t1", full [2; 2] r0); (str "t2", full [2; 2; 2; 2] r0); (str "t3", ex_t3)].
(** Two alpha orbitals, then two beta orbitals, occupied and virtual. *)
Definition ab_slices (s _ : nat) : list nat := if s =? ch_a then [0; 1] else [2; 3].
(** Three alpha and two beta electrons; one virtual orbital of each spin. *)
Definition oe_slices (s k : nat) : list nat := if k =? chr_of "o" then (if s =? ch_a then [0; 1; 2] else [3; 4]) else (if s =? ch_a then [0] else [1]).
Definition oe_shape (c : string) : list nat := map (fun s => if s =? ch_a then 3 else 2) (firstn 3 (str c)) ++ [1; 1; 1].
Definition oe_triples : dict pystr (uamp Qc_fld) :=
  [(str "t1", Spin Qc_fld [(str "aa", full [3; 1] r0); (str "bb", full [2; 1] r0)]);
   (str "t2", Spin Qc_fld [(str "aaaa", full [3; 3; 1; 1] r0); (str "abab", full [3; 2; 1; 1] r0); (str "bbbb", full [2; 2; 1; 1] r0)]);
   (str "t3", Spin Qc_fld (map (fun c => (str c, full (oe_shape c) r0)) ["aaaaaa"; "abaaba"; "babbab"; "bbbbbb"]%string))].

Definition t3_of (g : result (dict pystr (arr Qc_fld))) : arr Qc_fld :=
  match g with Ok d => match dget pystr_eq_dec (str "t3") d with Some t => t | None => full [] r0 end | Err _ => full [] r0 end.
Definition t3_check : bool :=
  match from_rebcc_general Qc_fld ab_slices (fun _ => 4) 0 false (ansatz_of "CCSDT") ex_triples with
  | Ok d => match dget pystr_eq_dec (str "t3") d with
            | Some t => (if Qc_eq_dec (aget r0 t [0; 2; 1; 0; 2; 1]) (radd r1 r1 : Qc_fld) then true else false) &&
                        (if Qc_eq_dec (aget r0 t [0; 1; 2; 0; 2; 1]) (r0 : Qc_fld) then true else false)
            | None => false end
  | Err _ => false
  end.
Lemma t3_check_ok : t3_check = true. Proof. vm_compute. reflexivity. Qed.
Lemma triples_wrong : exists g t, from_rebcc_general Qc_fld ab_slices (fun _ => 4) 0 false (ansatz_of "CCSDT") ex_triples = Ok g /\
  dget pystr_eq_dec (str "t3") g = Some t /\
  (forall i j k a b c, inb [2; 2; 2; 2; 2; 2] [i; j; k; a; b; c] ->
     aget r0 ex_t3 [k; j; i; a; b; c] = ropp (aget r0 ex_t3 [i; j; k; a; b; c]) /\ aget r0 ex_t3 [i; j; k; c; b; a] = ropp (aget r0 ex_t3 [i; j; k; a; b; c])) /\
  aget r0 ex_t3 [0; 0; 1; 0; 0; 1] = r1 /\ aget r0 t [0; 2; 1; 0; 2; 1] = radd r1 r1 /\
  aget r0 t [0; 1; 2; 0; 2; 1] <> ropp (aget r0 t [0; 2; 1; 0; 2; 1]).
Proof.
  pose proof t3_check_ok as H. unfold t3_check in H.
  destruct (from_rebcc_general Qc_fld ab_slices (fun _ => 4) 0 false (ansatz_of "CCSDT") ex_triples) as [g|] eqn:Eg; [|discriminate].
  destruct (dget pystr_eq_dec (str "t3") g) as [t|] eqn:Et; [|discriminate]. apply andb_prop in H as [H1 H2].
  destruct (Qc_eq_dec (aget r0 t [0; 2; 1; 0; 2; 1]) (radd r1 r1 : Qc_fld)) as [E1|]; [|discriminate].
  destruct (Qc_eq_dec (aget r0 t [0; 1; 2; 0; 2; 1]) (r0 : Qc_fld)) as [E2|]; [|discriminate].
  exists g, t. split; [reflexivity|]. split; [exact Et|]. split; [|split; [vm_compute; reflexivity|split; [exact E1|]]].
  - intros i j k a b c Hi. unfold inb in Hi. repeat match goal with H : Forall2 _ _ (_ :: _) |- _ => inversion H; clear H; subst end.
    repeat match goal with H : ?x < 2 |- _ => destruct x as [|[|?]]; [clear H|clear H|exfalso; lia] end; split; vm_compute; reflexivity.
  - intros E. pose proof (eq_trans (eq_sym E2) E) as E3. rewrite E1 in E3. vm_compute in E3. discriminate E3.
Qed.
Lemma triples_fail : @from_uebcc Qc_fld oe_slices (fun k => if k =? chr_of "o" then 5 else 2) 0 false (ansatz_of "CCSDT") oe_triples = Err BroadcastError /\
  alpha_beta oe_slices (fun k => if k =? chr_of "o" then 5 else 2) (chr_of "o") /\ alpha_beta oe_slices (fun k => if k =? chr_of "o" then 5 else 2) (chr_of "v") /\
  generate_spin_combinations 3 false true = map str ["aaaaaa"; "babbab"; "abaaba"; "bbbbbb"]%string.
Proof. split; [vm_compute; reflexivity|]. split; [apply Permutation_refl|]. split; [apply Permutation_refl|]. vm_compute. reflexivity. Qed.
