(** Model of the conversions between cluster amplitudes, coefficient amplitudes and CI vectors in ebcc/ext/fci.py, with the generated functions
    that they call.  An extra argument of a generated function is swallowed by its keyword arguments; a missing one is an error on its first use. *)
From Coq Require Import String ZArith.
From Verif Require Import Base Alg ArrModel PermModel TensorModel EinsumModel EinPathModel SpaceModel AnsatzModel VecModel CcModel CgModel CgNames FciModel.
From Verif Require Import Cg_RecCC Cg_UecCC.
Set Implicit Arguments.
Local Open Scope string_scope.
Local Open Scope nat_scope.
Local Open Scope list_scope.
Local Open Scope py_scope.

(** The names of the arguments and results of the generated conversions: attribute of the namespace, spins. *)
Definition array_names : list (ref * (string * string)) :=
  [(n_t1, ("t1", "")); (n_t2, ("t2", "")); (n_t3, ("t3", "")); (n_t4, ("t4", "")); (n_t4a, ("t4a", ""));
   (n_c1, ("c1", "")); (n_c2, ("c2", "")); (n_c3, ("c3", "")); (n_c4, ("c4", "")); (n_c4a, ("c4a", ""));
   (n_t1'aa, ("t1", "aa")); (n_t1'bb, ("t1", "bb"));
   (n_t2'aaaa, ("t2", "aaaa")); (n_t2'abab, ("t2", "abab")); (n_t2'bbbb, ("t2", "bbbb"));
   (n_t3'aaaaaa, ("t3", "aaaaaa")); (n_t3'abaaba, ("t3", "abaaba")); (n_t3'babbab, ("t3", "babbab")); (n_t3'bbbbbb, ("t3", "bbbbbb"));
   (n_t4'aaaaaaaa, ("t4", "aaaaaaaa")); (n_t4'aaabaaab, ("t4", "aaabaaab")); (n_t4'abababab, ("t4", "abababab"));
   (n_t4'abbbabbb, ("t4", "abbbabbb")); (n_t4'bbbbbbbb, ("t4", "bbbbbbbb"));
   (n_c1'aa, ("c1", "aa")); (n_c1'bb, ("c1", "bb"));
   (n_c2'aaaa, ("c2", "aaaa")); (n_c2'abab, ("c2", "abab")); (n_c2'bbbb, ("c2", "bbbb"));
   (n_c3'aaaaaa, ("c3", "aaaaaa")); (n_c3'abaaba, ("c3", "abaaba")); (n_c3'babbab, ("c3", "babbab")); (n_c3'bbbbbb, ("c3", "bbbbbb"));
   (n_c4'aaaaaaaa, ("c4", "aaaaaaaa")); (n_c4'aaabaaab, ("c4", "aaabaaab")); (n_c4'abababab, ("c4", "abababab"));
   (n_c4'abbbabbb, ("c4", "abbbabbb")); (n_c4'bbbbbbbb, ("c4", "bbbbbbbb"))].
Definition name_of (x : ref) : option (pystr * pystr) :=
  match find (fun q => Pos.eqb (fst q) x) array_names with Some (_, (n, s)) => Some (str n, str s) | None => None end.

(** fci.py:78-87, 303-310, 338-345: the generated functions, by order. *)
Definition r_c_to_t (n : nat) : prog :=
  match n with 1 => RecCC_convert_c1_to_t1 | 2 => RecCC_convert_c2_to_t2 | 3 => RecCC_convert_c3_to_t3 | _ => RecCC_convert_c4_to_t4 end.
Definition u_c_to_t (n : nat) : prog :=
  match n with 1 => UecCC_convert_c1_to_t1 | 2 => UecCC_convert_c2_to_t2 | 3 => UecCC_convert_c3_to_t3 | _ => UecCC_convert_c4_to_t4 end.
Definition u_t_to_c (n : nat) : prog :=
  match n with 1 => UecCC_convert_t1_to_c1 | 2 => UecCC_convert_t2_to_c2 | 3 => UecCC_convert_t3_to_c3 | _ => UecCC_convert_t4_to_c4 end.
(** [if max_order > 1: ... if max_order > 3: ...]: the first order always, the others on request, none above the fourth. *)
Definition converted_orders (max_order : nat) : list nat := filter (fun n => (n =? 1) || (n <=? max_order)) [1; 2; 3; 4].
Definition t_name (n : nat) : pystr := str "t" ++ dec n.

Section Conv.
  Variable F : fld.
  (** As for the generated functions ([CgModel.run]). *)
  Variable method : option nat.
  Variable path : list (list nat) -> list nat -> list (list nat) -> list contraction.
  Variable sz : cls -> nat.
  Local Notation amps_t := (dict pystr (tval F)).

  (** The arrays of a namespace, by the names that the generated code uses: [c2], [c2.aaaa]. *)
  Definition select (v : tval F) (s : pystr) : option (arr F) :=
    match v with
    | VArr x => match s with [] => Some x | _ => None end
    | VSpin d => dget pystr_eq_dec s d
    end.
  Definition arguments (d : amps_t) : env F := fun x =>
    match name_of x with
    | Some (n, s) => match dget pystr_eq_dec n d with Some v => select v s | None => None end
    | None => None
    end.
  (** The returned dictionary, [{"t2": t2}] with [t2.aaaa = ...] and so on. *)
  Definition add_result (d : amps_t) (xa : ref * arr F) : amps_t :=
    match name_of (fst xa) with
    | Some (n, []) => dset pystr_eq_dec n (VArr (snd xa)) d
    | Some (n, s) =>
        let e := match dget pystr_eq_dec n d with Some (VSpin e) => e | _ => [] end in
        dset pystr_eq_dec n (VSpin (dset pystr_eq_dec s (snd xa) e)) d
    | None => d
    end.
  Definition call (p : prog) (d : amps_t) : result amps_t :=
    rs <- run method path sz p (arguments d) ;; Ok (fold_left add_result (combine (map fst (p_out p)) rs) []).
  (** [ns.name = f(...)[name]] for some names. *)
  Definition take_from (r : amps_t) (names : list pystr) (d : amps_t) : result amps_t :=
    foldM (fun d n => v <- lookup n r ;; Ok (dset pystr_eq_dec n v d)) names d.
  (** [f(c2=camps.c2, **dict(amps))] *)
  Definition passing (camps : amps_t) (names : list pystr) (amps : amps_t) : result amps_t :=
    foldM (fun d n => v <- lookup n camps ;; Ok (dset pystr_eq_dec n v d)) names amps.

  (** fci.py:64-92 [_coefficients_to_amplitudes_restricted]. *)
  Definition r_t_names (n : nat) : list pystr := match n with 4 => [str "t4"; str "t4a"] | _ => [t_name n] end.
  Definition r_c_names (n : nat) : list pystr := match n with 4 => [str "c4"; str "c4a"] | _ => [order_name n] end.
  Definition r_coefficients_to_amplitudes (camps : amps_t) (max_order : nat) : result amps_t :=
    foldM (fun amps n => d <- passing camps (r_c_names n) amps ;; r <- call (r_c_to_t n) d ;; take_from r (r_t_names n) amps)
          (converted_orders max_order) [].
  (** fci.py:176-196 [_ci_vector_to_amplitudes_restricted]. *)
  Definition r_ci_to_amplitudes tn (sp : space) (ci : arr F) (max_order : nat) : result amps_t :=
    camps <- r_coefficients F tn sp ci max_order ;; r_coefficients_to_amplitudes camps max_order.

  (** fci.py:312-319: the division of every block, in place. *)
  Definition divide (x : arr F) (d : nat) : arr F := map_arr (fun z => fdiv z (rnat d)) x.
  Definition scale_block (n : nat) (amps : amps_t) (spins : pystr) : result amps_t :=
    let fa := factorial (count (firstn n spins) (chr_of "a")) in
    let fb := factorial (count (firstn n spins) (chr_of "b")) in
    v <- lookup (t_name n) amps ;; d <- as_spin v ;; x <- lookup spins d ;;
    Ok (dset pystr_eq_dec (t_name n) (VSpin (dset pystr_eq_dec spins (divide x (fa * fb)) d)) amps).
  Definition scale_all (max_order : nat) (amps : amps_t) : result amps_t :=
    foldM (fun amps n => foldM (scale_block n) (generate_spin_combinations n false true) amps) (seq 1 max_order) amps.
  (** fci.py:289-321 [_coefficients_to_amplitudes_unrestricted]. *)
  Definition u_coefficients_to_amplitudes (camps : amps_t) (max_order : nat) : result amps_t :=
    amps <- foldM (fun amps n => d <- passing camps [order_name n] amps ;; r <- call (u_c_to_t n) d ;; take_from r [t_name n] amps)
                  (converted_orders max_order) [] ;;
    scale_all max_order amps.
  (** fci.py:324-346 [_amplitudes_to_coefficients_unrestricted]. *)
  Definition u_amplitudes_to_coefficients (amps : amps_t) (max_order : nat) : result amps_t :=
    foldM (fun camps n => r <- call (u_t_to_c n) amps ;; take_from r [order_name n] camps) (converted_orders max_order) [].
  (** fci.py:443-463 [_ci_vector_to_amplitudes_unrestricted]. *)
  Definition u_ci_to_amplitudes tn (sa sb : space) (ci : arr F) (max_order : nat) : result amps_t :=
    camps <- u_coefficients F tn sa sb ci max_order ;; u_coefficients_to_amplitudes camps max_order.
  (** fci.py:466-603 [_amplitudes_to_ci_vector_unrestricted]. *)
  Definition u_amplitudes_to_ci tn norm (amps : amps_t) (max_order : nat) (normalise : bool) : result (arr F) :=
    u_to_ci F tn (fun amps => u_amplitudes_to_coefficients amps max_order) norm amps max_order normalise.

  (** fci.py:199-266 [_amplitudes_to_ci_vector_restricted]: unrestricted amplitudes from restricted ones. *)
  Definition symmetrised (sub : string) (x : arr F) (d : nat) : result (arr F) :=
    y <- symmetrise F None (str sub) x None ;; Ok (divide y d).
  Definition array_of (amps : amps_t) (name : string) : result (arr F) := v <- lookup (str name) amps ;; as_arr v.
  Definition spin_value (l : list (string * arr F)) : tval F := VSpin (map (fun q => (str (fst q), snd q)) l).
  Definition r_spin_singles (amps : amps_t) : result (tval F) :=
    t1 <- array_of amps "t1" ;; Ok (spin_value [("aa", t1); ("bb", t1)]).
  Definition r_spin_doubles (amps : amps_t) : result (tval F) :=
    t2 <- array_of amps "t2" ;; aa <- symmetrised "iiaa" t2 4 ;;
    Ok (spin_value [("aaaa", aa); ("abab", t2); ("bbbb", aa)]).
  Definition r_spin_triples (amps : amps_t) : result (tval F) :=
    t3 <- array_of amps "t3" ;; aaa <- symmetrised "iiiaaa" t3 72 ;; aba <- symmetrised "ijiaba" t3 8 ;;
    Ok (spin_value [("aaaaaa", aaa); ("abaaba", aba); ("babbab", aba); ("bbbbbb", aaa)]).
  Definition r_spin_quadruples (amps : amps_t) : result (tval F) :=
    t4 <- array_of amps "t4" ;; aaaa <- symmetrised "iiiiaaaa" t4 (576 * 4) ;;
    t4a <- array_of amps "t4a" ;;
    x <- transpose r0 t4a [0; 2; 3; 1; 4; 6; 7; 5] ;; aaab <- symmetrised "iiijaaab" x 216 ;;
    y <- transpose r0 t4a [1; 0; 2; 3; 5; 4; 6; 7] ;; baaa <- symmetrised "jiiibaaa" y 216 ;;
    abab <- symmetrised "ijijabab" t4 64 ;;
    Ok (spin_value [("aaaaaaaa", aaaa); ("aaabaaab", aaab); ("abababab", abab); ("abbbabbb", baaa); ("bbbbbbbb", aaaa)]).
  Definition r_spin_blocks (n : nat) : amps_t -> result (tval F) :=
    match n with 1 => r_spin_singles | 2 => r_spin_doubles | 3 => r_spin_triples | _ => r_spin_quadruples end.
  Definition r_to_u (amps : amps_t) (max_order : nat) : result amps_t :=
    foldM (fun d n => v <- r_spin_blocks n amps ;; Ok (dset pystr_eq_dec (t_name n) v d)) (converted_orders max_order) [].
  Definition r_amplitudes_to_ci tn norm (amps : amps_t) (max_order : nat) (normalise : bool) : result (arr F) :=
    if 4 <? max_order then Err NotImplementedError else
    uamps <- r_to_u amps max_order ;; u_amplitudes_to_ci tn norm uamps max_order normalise.
End Conv.
