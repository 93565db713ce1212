(** Property theorems C01-C04, C10 (ebcc/util/permutations.py). *)
From Coq Require Import Sorted String.
From Verif Require Import Base PermSpec PermModel PermSign PermProofs StringPermProofs TrilProofs SpinProofs CombineProofs.
Local Open Scope string_scope.
Local Open Scope list_scope.

(** C01: the list has [n!] entries, which are exactly the rearrangements ... *)
Theorem C01_permutations_complete : forall (A : Type) (l p : list A),
  In p (map fst (permutations_with_signs l)) <-> Permutation l p.
Proof. exact (@pws_in_fst). Qed.
Print Assumptions C01_permutations_complete.

Theorem C01_permutations_count : forall (A : Type) (l : list A),
  length (permutations_with_signs l) = fact (length l).
Proof. exact (@pws_length). Qed.
Print Assumptions C01_permutations_count.

Theorem C01_permutations_distinct : forall (A : Type) (l : list A),
  NoDup l -> NoDup (map fst (permutations_with_signs l)).
Proof. exact (@pws_nodup). Qed.
Print Assumptions C01_permutations_distinct.

(** ... and each sign is (-1)^k for every way of reaching the rearrangement by [k] exchanges
    of two entries; every rearrangement can be reached. *)
Theorem C01_permutations_sign : forall (A : Type) (l p : list A) (s : Z) (k : nat),
  NoDup l -> In (p, s) (permutations_with_signs l) -> swaps k l p -> s = minus_one_pow k.
Proof. exact (@pws_sign_swaps). Qed.
Print Assumptions C01_permutations_sign.

Theorem C01_permutations_reachable : forall (A : Type) (l p : list A),
  Permutation l p -> exists k, swaps k l p.
Proof. exact (@perm_swaps). Qed.
Print Assumptions C01_permutations_reachable.

Example C01_example : In ([2; 0; 1], 1%Z) (permutations_with_signs [0; 1; 2]) /\ swaps 2 [0; 1; 2] [2; 0; 1].
Proof.
  split; [cbn; tauto|].
  apply (@swaps_one nat 1 [0;1;2] [2] 1 [] 0 []).
  apply (@swaps_one nat 0 [0;1;2] [] 0 [1] 2 []). apply swaps_none.
Qed.

(** The factorial used for these counts agrees with the usual one. *)
Theorem C01_factorial : forall n, factorial n = fact n.
Proof. exact factorial_fact. Qed.
Print Assumptions C01_factorial.

(** C02: looking up the permutation of a rearranged string and applying it returns that string. *)
Theorem C02_string_permutation_roundtrip : forall s t : pystr, Permutation s t ->
  exists r, get_string_permutation s t = Ok r /\ Permutation (seq 0 (length s)) r /\ permute_string s r = Ok t.
Proof. exact gsp_perm. Qed.
Print Assumptions C02_string_permutation_roundtrip.

(** Whenever the lookup returns, the answer consists of distinct valid positions spelling the
    target, equal characters being taken in order. *)
Theorem C02_string_permutation_sound : forall (s t : pystr) (r : list nat),
  get_string_permutation s t = Ok r ->
  permute_string s r = Ok t /\ NoDup r /\ length r = length t /\ (forall p, In p r -> p < length s) /\
  (forall i j, i < j -> j < length t -> nth i t 0 = nth j t 0 -> nth i r 0 < nth j r 0).
Proof. exact gsp_sound. Qed.
Print Assumptions C02_string_permutation_sound.

(** It raises exactly when some character is requested more often than it occurs. *)
Theorem C02_string_permutation_raises : forall s t : pystr,
  (exists r, get_string_permutation s t = Ok r) <->
  (forall c, count_occ Nat.eq_dec t c <= count_occ Nat.eq_dec s c).
Proof. exact gsp_ok_iff. Qed.
Print Assumptions C02_string_permutation_raises.

Example C02_example : get_string_permutation (str "abca") (str "aacb") = Ok [0; 3; 2; 1]
  /\ get_string_permutation (str "abc") (str "aab") = Err IndexError
  /\ get_string_permutation (str "abc") (str "abd") = Err KeyError.
Proof. repeat split; reflexivity. Qed.

(** C03: the columns of the returned index arrays are the list [tril_tuples], which contains
    exactly the decreasing tuples, each once, in lexicographic order; [ntril_ndim] counts them. *)
Theorem C03_tril_columns : forall n d diag arrs, tril_indices_ndim n d diag = Ok arrs ->
  length arrs = d /\ (forall a, In a arrs -> length a = length (tril_tuples n d diag)) /\
  map (fun k => map (fun a => nth k a 0) arrs) (seq 0 (length (tril_tuples n d diag))) = tril_tuples n d diag.
Proof. exact tril_indices_cols. Qed.
Print Assumptions C03_tril_columns.

Theorem C03_tril_members : forall n d diag t,
  In t (tril_tuples n d diag) <-> length t = d /\ (forall x, In x t -> x < n) /\ decreasing diag t.
Proof. exact tril_tuples_in. Qed.
Print Assumptions C03_tril_members.

Theorem C03_tril_order : forall n d diag, StronglySorted lex_lt (tril_tuples n d diag).
Proof. exact tril_tuples_sorted. Qed.
Print Assumptions C03_tril_order.

Theorem C03_tril_once : forall n d diag, NoDup (tril_tuples n d diag).
Proof. exact tril_tuples_nodup. Qed.
Print Assumptions C03_tril_once.

Theorem C03_ntril_counts : forall n d diag, ntril_ndim n d diag = length (tril_tuples n d diag).
Proof. exact ntril_count. Qed.
Print Assumptions C03_ntril_counts.

Theorem C03_ntril_closed_form : forall n d diag,
  ntril_ndim n d diag * fact d = if diag then rising n d else falling n d.
Proof. exact ntril_closed. Qed.
Print Assumptions C03_ntril_closed_form.

Example C03_example : tril_indices_ndim 4 3 false = Ok [[2; 3; 3; 3]; [1; 1; 2; 2]; [0; 0; 0; 1]]
  /\ ntril_ndim 4 3 false = 4 /\ ntril_ndim 3 2 true = 6.
Proof. repeat split; reflexivity. Qed.

(** C04: the full list is every doubled spin string once (last letter dropped when excited). *)
Theorem C04_spin_full : forall n ex s,
  In s (generate_spin_combinations n ex false) <->
  exists t, spin_str n t /\ s = (if ex then removelast (t ++ t) else t ++ t).
Proof. exact full_in. Qed.
Print Assumptions C04_spin_full.

Theorem C04_spin_full_once : forall n ex,
  NoDup (generate_spin_combinations n ex false) /\ length (generate_spin_combinations n ex false) = 2 ^ n.
Proof. exact (fun n ex => conj (full_nodup n ex) (full_length n ex)). Qed.
Print Assumptions C04_spin_full_once.

(** The unique list has, for every k = 0..n, exactly one string with k alpha spins per half. *)
Theorem C04_spin_unique : forall n,
  (forall s, In s (generate_spin_combinations n false true) -> exists t, spin_str n t /\ s = t ++ t) /\
  Permutation (map (fun s => count_occ Nat.eq_dec (firstn n s) ch_a) (generate_spin_combinations n false true))
              (seq 0 (n + 1)).
Proof. exact unique_counts. Qed.
Print Assumptions C04_spin_unique.

(** Excited unique list: one representative of every class of the full list. *)
Theorem C04_spin_unique_excited : forall n, 1 <= n ->
  (forall s, In s (generate_spin_combinations n true true) -> In s (generate_spin_combinations n true false)) /\
  (forall s, In s (generate_spin_combinations n true false) ->
     exists s', In s' (generate_spin_combinations n true true) /\ same_class n s' s /\
       forall s'', In s'' (generate_spin_combinations n true true) -> same_class n s'' s -> s'' = s') /\
  NoDup (generate_spin_combinations n true true).
Proof. exact unique_excited. Qed.
Print Assumptions C04_spin_unique_excited.

Example C04_example : generate_spin_combinations 2 false true = map str ["aaaa"; "abab"; "bbbb"]
  /\ generate_spin_combinations 3 false true = map str ["aaaaaa"; "babbab"; "abaaba"; "bbbbbb"]
  /\ generate_spin_combinations 2 true true = map str ["aaa"; "aba"; "bab"; "bbb"].
Proof. repeat split; reflexivity. Qed.

(** C10: combined letters are equal exactly where all input subscripts are, and sizes follow. *)
Theorem C10_combine_subscripts : forall ss sizes sub sz, combine_subscripts ss sizes = Ok (sub, sz) ->
  (forall s, In s ss -> length s = length sub) /\
  (forall i j, i < length sub -> j < length sub ->
     (nth i sub 0 = nth j sub 0 <-> forall s, In s ss -> nth i s 0 = nth j s 0)) /\
  (sizes = [] -> sz = []) /\
  (sizes <> [] -> forall i, i < length sub ->
     exists n, dget pystr_eq_dec (map (fun s => nth i s 0) ss) sizes = Some n /\
               dget Nat.eq_dec (nth i sub 0) sz = Some n).
Proof. exact combine_ok. Qed.
Print Assumptions C10_combine_subscripts.

(** It succeeds exactly for equal lengths, at most 91 distinct columns and complete sizes. *)
Theorem C10_combine_succeeds : forall ss sizes, is_ok (combine_subscripts ss sizes) = true <->
  exists s0 ss', ss = s0 :: ss' /\ (forall s, In s ss -> length s = length s0) /\
    length (nodup pystr_eq_dec (map (fun i => map (fun s => nth i s 0) ss) (seq 0 (length s0)))) <= 91 /\
    (sizes = [] \/ forall i, i < length s0 -> dget pystr_eq_dec (map (fun s => nth i s 0) ss) sizes <> None).
Proof. exact combine_ok_iff. Qed.
Print Assumptions C10_combine_succeeds.

Theorem C10_combine_length_error : forall ss sizes s s', In s ss -> In s' ss -> length s <> length s' ->
  combine_subscripts ss sizes = Err ValueError.
Proof. exact combine_len_error. Qed.
Print Assumptions C10_combine_length_error.

Theorem C10_combine_too_many : forall ss s0, (forall s, In s ss -> length s = length s0) -> In s0 ss ->
  91 < length (nodup pystr_eq_dec (map (fun i => map (fun s => nth i s 0) ss) (seq 0 (length s0)))) ->
  combine_subscripts ss [] = Err ValueError.
Proof. exact combine_many_error. Qed.
Print Assumptions C10_combine_too_many.

Example C10_example :
  combine_subscripts [str "ijab"; str "abab"] [(str "ia", 3); (str "jb", 4); (str "aa", 5); (str "bb", 6)]
  = Ok (str "abcd", [(97, 3); (98, 4); (99, 5); (100, 6)])
  /\ combine_subscripts [str "iiaa"; str "aaaa"] [(str "ia", 3); (str "aa", 5)] = Ok (str "aabb", [(97, 3); (98, 5)]).
Proof. split; reflexivity. Qed.
