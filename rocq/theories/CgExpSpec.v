(** Vocabulary for the relation between cluster amplitudes and CI coefficients: 1 + C = exp(T), T = log(1 + C). *)
From Coq Require Import List ZArith.
From Verif Require Import Base Alg ArrModel CgModel CgSpec CgFormSpec CgNames CgRelSpec CgLagSpec.
From Verif Require Import Cg_GecCC Cg_UecCC Cg_RecCC.
Import ListNotations.
Local Open Scope list_scope.
Local Open Scope nat_scope.

(** All orders of a list; [true] for the odd ones. *)
Fixpoint insertions (x : nat) (l : list nat) : list (list nat * bool) :=
  (x :: l, false) :: match l with [] => [] | y :: l' => map (fun p => (y :: fst p, negb (snd p))) (insertions x l') end.
Fixpoint signed_permutations (l : list nat) : list (list nat * bool) :=
  match l with
  | [] => [([], false)]
  | x :: l' => flat_map (fun p => map (fun q => (fst q, xorb (snd p) (snd q))) (insertions x (fst p))) (signed_permutations l')
  end.

(** Cluster amplitudes t and coefficients c. *)
Inductive sort := Cluster | Coefficient.
(** Excitations of [n] electrons, over spin orbitals. *)
Definition spin_orbital_name (w : sort) (n : nat) : ref :=
  match w, n with
  | Cluster, 1 => n_t1 | Cluster, 2 => n_t2 | Cluster, 3 => n_t3 | Cluster, _ => n_t4
  | Coefficient, 1 => n_c1 | Coefficient, 2 => n_c2 | Coefficient, 3 => n_c3 | Coefficient, _ => n_c4
  end.

(** The ways to choose some elements of a list: the chosen ones, the others, and whether it takes an odd permutation to bring the chosen
    ones to the front. *)
Fixpoint choices (l : list nat) : list (list nat * list nat * bool) :=
  match l with
  | [] => [([], [], false)]
  | x :: l' => flat_map (fun q => let '(a, b, s) := q in [(x :: a, b, s); (a, x :: b, xorb s (Nat.odd (length a)))]) (choices l')
  end.
(** The ways to divide the excitation of the electrons [os] to [vs] into excitations of fewer electrons, each with its sign.  The first
    part is the one that excites the first electron, so that no division is counted twice.  The number [n] is that of the electrons. *)
Fixpoint divisions (n : nat) (os vs : list nat) : list (list (list nat * list nat) * bool) :=
  match n, os with
  | S n', o :: os' =>
      flat_map (fun q => let '(a, a', s) := q in
        flat_map (fun r => let '(b, b', s') := r in
          if length b =? S (length a) then map (fun d => ((o :: a, b) :: fst d, xorb (xorb s s') (snd d))) (divisions n' a' b') else [])
          (choices vs)) (choices os')
  | _, _ => [([], false)]
  end.
(** The sum over the divisions, [c k] being the factor of those into [k] parts. *)
Definition series (w : sort) (c : nat -> Z) (os vs : list nat) : formula :=
  map (fun d => let k := c (length (fst d)) in
                mono (if snd d : bool then - k else k) 1 (map (fun p => (spin_orbital_name w (length (fst p)), fst p ++ snd p)) (fst d)))
      (divisions (length os) os vs).
(** exp(x) - 1 = x + x^2/2! + ... and log(1 + x) = x - 1! x^2/2! + 2! x^3/3! - ...; in x^k every division into k parts occurs k! times. *)
Definition in_exponential (k : nat) : Z := 1.
Definition in_logarithm (k : nat) : Z := (if Nat.odd k then 1 else -1) * Z.of_nat (fact (k - 1)).
Definition expansion (w : sort) : list nat -> list nat -> formula :=
  match w with Cluster => series Coefficient in_logarithm | Coefficient => series Cluster in_exponential end.

(** Spins.  Labels of alpha orbitals are 40-59, those of beta orbitals 60-79. *)
Definition beta (l : nat) : bool := 6 <=? l / 10.
Definition occupied_of (p : list bool) : list nat := map (fun q : bool * nat => (if fst q then 60 else 40) + snd q) (combine p (seq 0 (length p))).
Definition virtual_of (p : list bool) : list nat := map (fun q : bool * nat => (if fst q then 70 else 50) + snd q) (combine p (seq 0 (length p))).
(** The stored block of [n] electrons, [nb] of them with spin beta: aba for two alpha and one beta, abab for two of each. *)
Definition stored (n nb : nat) : list bool :=
  match n, nb with
  | 3, 1 => [false; true; false] | 3, 2 => [true; false; true] | 4, 2 => [false; true; false; true]
  | _, _ => repeat false (n - nb) ++ repeat true nb
  end.
Definition block_name (w : sort) (n nb : nat) : ref :=
  match w with
  | Cluster => match n, nb with
      | 1, 0 => n_t1'aa | 1, _ => n_t1'bb
      | 2, 0 => n_t2'aaaa | 2, 1 => n_t2'abab | 2, _ => n_t2'bbbb
      | 3, 0 => n_t3'aaaaaa | 3, 1 => n_t3'abaaba | 3, 2 => n_t3'babbab | 3, _ => n_t3'bbbbbb
      | _, 0 => n_t4'aaaaaaaa | _, 1 => n_t4'aaabaaab | _, 2 => n_t4'abababab | _, 3 => n_t4'abbbabbb | _, _ => n_t4'bbbbbbbb end
  | Coefficient => match n, nb with
      | 1, 0 => n_c1'aa | 1, _ => n_c1'bb
      | 2, 0 => n_c2'aaaa | 2, 1 => n_c2'abab | 2, _ => n_c2'bbbb
      | 3, 0 => n_c3'aaaaaa | 3, 1 => n_c3'abaaba | 3, 2 => n_c3'babbab | 3, _ => n_c3'bbbbbb
      | _, 0 => n_c4'aaaaaaaa | _, 1 => n_c4'aaabaaab | _, 2 => n_c4'abababab | _, 3 => n_c4'abbbabbb | _, _ => n_c4'bbbbbbbb end
  end.
(** Number of pairs of a beta before an alpha. *)
Fixpoint inversions (s : list bool) : nat := match s with [] => 0 | b :: s' => (if b then length (filter negb s') else 0) + inversions s' end.
Fixpoint arrange (p : list bool) (a b : list nat) : list nat :=
  match p with [] => [] | true :: p' => hd 0 b :: arrange p' a (tl b) | false :: p' => hd 0 a :: arrange p' (tl a) b end.
(** An excitation of electrons with spins, in terms of the stored blocks: zero unless the number of beta electrons is conserved; otherwise the
    indices are brought into the stored order, with the sign of this permutation. *)
Definition in_blocks (w : sort) (os vs : list nat) : formula :=
  let nb := length (filter beta os) in
  if nb =? length (filter beta vs) then
    let p := stored (length os) nb in
    let order l := arrange p (filter (fun x => negb (beta x)) l) (filter beta l) in
    [mono (if Nat.odd (inversions (map beta os) + inversions (map beta vs)) then -1 else 1) 1 [(block_name w (length os) nb, order os ++ order vs)]]
  else [].
(** The same in terms of excitations of spatial orbitals: the sum, over the orders of the virtual orbitals in which every electron keeps its
    spin, of the spatial excitation, with signs. *)
Definition spatial_label (l : nat) : nat := match l / 10 with 4 | 6 => l mod 10 | _ => 10 + l mod 10 end.
Definition in_spatial (w : sort) (os vs : list nat) : formula :=
  flat_map (fun p => if forallb (fun q => Bool.eqb (beta (fst q)) (beta (snd q))) (combine os (fst p))
                     then [mono (if snd p : bool then -1 else 1) 1 [(spin_orbital_name w (length os), map spatial_label (os ++ fst p))]]
                     else []) (signed_permutations vs).
(** Every excitation over spin orbitals in a formula replaced by a rule. *)
Definition halves (l : list nat) : list nat * list nat := (firstn (length l / 2) l, skipn (length l / 2) l).
Definition times (f g : formula) : formula :=
  flat_map (fun a => map (fun b => mono (fst (fst a) * fst (fst b)) (snd (fst a) * snd (fst b)) (snd a ++ snd b)) g) f.
Definition replaced (rule : list nat -> list nat -> formula) (f : formula) : formula :=
  flat_map (fun m => fold_left (fun acc t => let h := halves (snd t) in times acc (rule (fst h) (snd h))) (snd m) [mono (fst (fst m)) (snd (fst m)) []]) f.

(** General calculations: one array per order. *)
Definition orders : list nat := [1; 2; 3; 4].
Definition general_of (w : sort) (f : list nat -> list nat -> formula) : table :=
  map (fun n => let os := seq 0 n in let vs := seq 10 n in (spin_orbital_name w n, (os ++ vs, f os vs))) orders.
Definition own_general (w : sort) : table := general_of w (fun os vs => [mono 1 1 [(spin_orbital_name w (length os), os ++ vs)]]).
Definition expanded_general (w : sort) : table := general_of w (expansion w).
(** Unrestricted calculations: one array per order and number of beta electrons; those of the cluster amplitudes are divided by [d]. *)
Definition unrestricted_of (w : sort) (f : list nat -> list nat -> formula) : table :=
  flat_map (fun n => map (fun nb => let p := stored n nb in (block_name w n nb, (occupied_of p ++ virtual_of p, f (occupied_of p) (virtual_of p)))) (seq 0 (S n))) orders.
Definition own_unrestricted (w : sort) : table := unrestricted_of w (in_blocks w).
Definition expanded_unrestricted (w : sort) : table :=
  unrestricted_of w (fun os vs => replaced (in_blocks match w with Cluster => Coefficient | Coefficient => Cluster end) (expansion w os vs)).
Definition spin_factor (os : list nat) : nat := fact (length (filter (fun x => negb (beta x)) os)) * fact (length (filter beta os)).
Definition divided_by_spins (f : list nat -> list nat -> formula) (os vs : list nat) : formula :=
  times [mono 1 (Pos.of_nat (spin_factor os)) []] (f os vs).
Definition stored_unrestricted : table := unrestricted_of Cluster (divided_by_spins (in_blocks Cluster)).
Definition stored_expanded_unrestricted : table := unrestricted_of Cluster (divided_by_spins (fun os vs => replaced (in_blocks Coefficient) (expansion Cluster os vs))).
(** Restricted calculations: the blocks a, ab, aba, abab and abaa. *)
Definition restricted_blocks (w : sort) : list (ref * list bool) :=
  [(spin_orbital_name w 1, [false]); (spin_orbital_name w 2, [false; true]); (spin_orbital_name w 3, [false; true; false]);
   (spin_orbital_name w 4, [false; true; false; true]); (match w with Cluster => n_t4a | Coefficient => n_c4a end, [false; true; false; false])].
Definition restricted_of (w : sort) (f : list nat -> list nat -> formula) : table :=
  map (fun q => let os := occupied_of (snd q) in let vs := virtual_of (snd q) in (fst q, (map spatial_label (os ++ vs), f os vs))) (restricted_blocks w).
Definition own_restricted (w : sort) : table := restricted_of w (in_spatial w).
Definition expanded_restricted (w : sort) : table :=
  restricted_of w (fun os vs => replaced (in_spatial match w with Cluster => Coefficient | Coefficient => Cluster end) (expansion w os vs)).

(** The given tensors and their symmetries: antisymmetric in the occupied and in the virtual indices of equal spin; over spatial orbitals,
    symmetric under permutations of the electrons. *)
Definition tensors_of (T : table) : list (ref * list cls) := map (fun q => (fst q, map kind (fst (snd q)))) T.
Definition general_tensors (w : sort) := tensors_of (own_general w).
Definition unrestricted_tensors (w : sort) := tensors_of (own_unrestricted w).
Definition spatial_tensors (w : sort) := general_tensors w.
Definition both (n : nat) (g : list (list nat * bool)) : list (list nat * bool) :=
  flat_map (fun p => map (fun q => (fst p ++ map (Nat.add n) (fst q), xorb (snd p) (snd q))) g) g.
Definition spin_permutations (p : list bool) : list (list nat * bool) :=
  let at_ b := map snd (filter (fun q : bool * nat => Bool.eqb (fst q) b) (combine p (seq 0 (length p)))) in
  flat_map (fun x => map (fun y => (arrange p (fst x) (fst y), xorb (snd x) (snd y))) (signed_permutations (at_ true))) (signed_permutations (at_ false)).
(** Without the identity, which comes first. *)
Definition general_antisymmetry (w : sort) : symmetries :=
  map (fun n => (spin_orbital_name w n, tl (both n (signed_permutations (seq 0 n))))) orders.
Definition unrestricted_antisymmetry (w : sort) : symmetries :=
  flat_map (fun n => map (fun nb => (block_name w n nb, tl (both n (spin_permutations (stored n nb))))) (seq 0 (S n))) orders.
Definition spatial_symmetry (w : sort) : symmetries :=
  map (fun n => (spin_orbital_name w n, tl (map (fun p => (fst p ++ map (Nat.add n) (fst p), false)) (signed_permutations (seq 0 n))))) orders.

(** The generated conversions, by order. *)
Definition general_to_coefficients : list prog := [GecCC_convert_t1_to_c1; GecCC_convert_t2_to_c2; GecCC_convert_t3_to_c3; GecCC_convert_t4_to_c4].
Definition general_to_amplitudes : list prog := [GecCC_convert_c1_to_t1; GecCC_convert_c2_to_t2; GecCC_convert_c3_to_t3; GecCC_convert_c4_to_t4].
Definition unrestricted_to_coefficients : list prog := [UecCC_convert_t1_to_c1; UecCC_convert_t2_to_c2; UecCC_convert_t3_to_c3; UecCC_convert_t4_to_c4].
Definition unrestricted_to_amplitudes : list prog := [UecCC_convert_c1_to_t1; UecCC_convert_c2_to_t2; UecCC_convert_c3_to_t3; UecCC_convert_c4_to_t4].
Definition restricted_to_coefficients : list prog := [RecCC_convert_t1_to_c1; RecCC_convert_t2_to_c2; RecCC_convert_t3_to_c3; RecCC_convert_t4_to_c4].
Definition restricted_to_amplitudes : list prog := [RecCC_convert_c1_to_t1; RecCC_convert_c2_to_t2; RecCC_convert_c3_to_t3; RecCC_convert_c4_to_t4].

(** For all tensors [B] with the symmetries [S], each function, called with the arguments of the table [T], returns the results of [Tout]. *)
Definition convert_all (B : list (ref * list cls)) (S : symmetries) (T : table) (ps : list prog) (Tout : table) : Prop :=
  forall p, In p ps -> forall (F : fld) sz, characteristic_zero F -> forall eB : env F, symmetric sz S B eB -> returns F sz eB p T Tout.
