(** The amplitudes of converted calculations as arguments of the generated functions: which entry of the dictionaries
    each argument is (cf. [_pack_codegen_kwargs] in cc/base.py and [CgNames]). *)
From Coq Require Import String.
From Verif Require Import Base Alg ArrModel PermModel AnsatzModel ConvModel ConvSpec CgModel CgSpec CgFormSpec CgOrderSpec CgNames CgTables CgPairs.
Local Open Scope list_scope. Local Open Scope string_scope.
Set Implicit Arguments.

Ltac mem := cbv; repeat (first [left; reflexivity|right]).

(** Single and double excitations, with couplings of single excitations to one or two bosons. *)
Definition singles_doubles (a : ansatz) : Prop :=
  exists fr br, fermionic_cluster_ranks a false Wt = Ok fr /\ incl fr [(str "t1", str "ov", 1); (str "t2", str "oovv", 2)] /\
    bosonic_cluster_ranks a Wt = Ok br /\ incl br [(str "s1", str "b", 1); (str "s2", str "bb", 2)] /\ frank a <= 1 /\ brank a <= 2.
(** The names of the amplitudes ([false]) or multipliers ([true]) of an ansatz. *)
Definition amplitude_names (lams : bool) (a : ansatz) : list pystr :=
  match fermionic_cluster_ranks a false Wt, bosonic_cluster_ranks a Wt, coupling_cluster_ranks a Wt with
  | Ok fr, Ok br, Ok cr => map (fun e => fname lams (fst (fst e))) fr ++ map (fun e => bname lams (fst (fst e))) br ++ map (fun e => bname lams (fst (fst (fst e)))) cr
  | _, _, _ => []
  end.

Section Names.
  Variable F : fld.
  (** Block [comb] of the amplitude [name] of an unrestricted calculation; bosonic amplitudes have no blocks. *)
  Definition amplitude (u : dict pystr (uamp F)) (name : string) (comb : option string) : option (arr F) :=
    match dget pystr_eq_dec (str name) u, comb with
    | Some (Spin _ bs), Some c => dget pystr_eq_dec (str c) bs
    | Some (Whole _ v), None => Some v
    | _, _ => None
    end.
End Names.

(** Restricted and general calculations: one array for each amplitude.  [true]: the multipliers. *)
Definition plain_names (lams : bool) : list (ref * string) :=
  if lams then [(n_l1, "l1"); (n_l2, "l2"); (n_ls1, "ls1"); (n_ls2, "ls2"); (n_lu11, "lu11"); (n_lu12, "lu12")]
  else [(n_t1, "t1"); (n_t2, "t2"); (n_s1, "s1"); (n_s2, "s2"); (n_u11, "u11"); (n_u12, "u12")].
(** Unrestricted calculations. *)
Definition block_names (lams : bool) : list (ref * (string * option string)) :=
  if lams then
    [(n_l1'aa, ("l1", Some "aa")); (n_l1'bb, ("l1", Some "bb"));
     (n_l2'aaaa, ("l2", Some "aaaa")); (n_l2'abab, ("l2", Some "abab")); (n_l2'bbbb, ("l2", Some "bbbb"));
     (n_ls1, ("ls1", None)); (n_ls2, ("ls2", None));
     (n_lu11'aa, ("lu11", Some "aa")); (n_lu11'bb, ("lu11", Some "bb")); (n_lu12'aa, ("lu12", Some "aa")); (n_lu12'bb, ("lu12", Some "bb"))]
  else
    [(n_t1'aa, ("t1", Some "aa")); (n_t1'bb, ("t1", Some "bb"));
     (n_t2'aaaa, ("t2", Some "aaaa")); (n_t2'abab, ("t2", Some "abab")); (n_t2'bbbb, ("t2", Some "bbbb"));
     (n_s1, ("s1", None)); (n_s2, ("s2", None));
     (n_u11'aa, ("u11", Some "aa")); (n_u11'bb, ("u11", Some "bb")); (n_u12'aa, ("u12", Some "aa")); (n_u12'bb, ("u12", Some "bb"))].

Section Arguments.
  Variable F : fld.
  Variable sz : cls -> nat.

  (** The restricted amplitudes ([amps false]) and multipliers ([amps true]), among the tensors [eB] of the calculation. *)
  Definition restricted_amplitudes (amps : bool -> dict pystr (arr F)) (eB : env F) : Prop :=
    (forall lams x name, In (x, name) (plain_names lams) -> eB x = dget pystr_eq_dec (str name) (amps lams)) /\
    (forall x cs tn, In (x, cs) spatial -> eB x = Some tn -> of_kinds F sz cs tn).
  (** Arguments of an unrestricted function: the amplitudes and multipliers are those in [u], everything else (integrals, ...)
      is related to the tensors [eB] of the restricted calculation by table [closed_shell]. *)
  Definition unrestricted_arguments (eB : env F) (u : bool -> dict pystr (uamp F)) (ins : list (ref * list cls)) (e : env F) : Prop :=
    forall x cs, In (x, cs) ins ->
      (forall lams nm comb, In (x, (nm, comb)) (block_names lams) -> e x = amplitude (u lams) nm comb) /\
      ((forall lams nm, ~ In (x, nm) (block_names lams)) -> given_by sz closed_split closed_shell eB x cs (tens F (e x))).

  (** The same for unrestricted amplitudes *)
  Definition unrestricted_amplitudes (amps : bool -> dict pystr (uamp F)) (eB : env F) : Prop :=
    (forall lams x name comb, In (x, (name, comb)) (block_names lams) -> eB x = amplitude (amps lams) name comb) /\
    (forall x cs tn, In (x, cs) spin_blocks -> eB x = Some tn -> of_kinds F sz cs tn).
  (** and arguments of a general function.  Orbital [i] of spin [s] is at position [spin_orbital_at slices s k i]. *)
  Definition spin_positions (slices : nat -> nat -> list nat) (c b : cls) (i : nat) : nat :=
    match c, b with
    | 0, 4 => spin_orbital_at slices true (chr_of "o") i
    | 0, 6 => spin_orbital_at slices false (chr_of "o") i
    | 1, 5 => spin_orbital_at slices true (chr_of "v") i
    | 1, 7 => spin_orbital_at slices false (chr_of "v") i
    | _, _ => i
    end.
  Definition spin_slices (slices : nat -> nat -> list nat) (size : nat -> nat) : Prop :=
    alpha_beta slices size (chr_of "o") /\ alpha_beta slices size (chr_of "v") /\
    size (chr_of "o") = sz 0 /\ size (chr_of "v") = sz 1 /\
    List.length (slices ch_a (chr_of "o")) = sz 4 /\ List.length (slices ch_b (chr_of "o")) = sz 6 /\
    List.length (slices ch_a (chr_of "v")) = sz 5 /\ List.length (slices ch_b (chr_of "v")) = sz 7.
  Definition general_arguments (slices : nat -> nat -> list nat) (eB : env F) (g : bool -> dict pystr (arr F)) (ins : list (ref * list cls)) (e : env F) : Prop :=
    forall x cs, In (x, cs) ins ->
      (forall lams nm, In (x, nm) (plain_names lams) -> e x = dget pystr_eq_dec (str nm) (g lams)) /\
      ((forall lams nm, ~ In (x, nm) (plain_names lams)) -> given_at sz spin_split (spin_positions slices) spin_orbital eB x cs (tens F (e x))).
End Arguments.
