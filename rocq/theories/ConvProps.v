(** Theorems for C74 (restricted calculations converted to unrestricted ones), C75 (unrestricted calculations
    converted to general ones) and C76 (the order of the orbitals). *)
From Coq Require Import String List.
From Verif Require Import Base Alg ArrModel PermModel TensorModel AnsatzModel ConvModel ConvSpec ConvThms ConvNames ConvRes ConvGen ConvTotal ConvAgree ConvExist ConvEx
  EinsumModel EinPathSpec CgModel CgSpec CgFormSpec CgCompare CgNames CgTables CgPairs CgAgree CgAll CgRot CgAllRot CgOrderSpec CgOrder CgEx CgAgreeEx.
From Verif Require Import Cg_RCCSD_SD_1_2 Cg_UCCSD_SD_1_2 Cg_UCCSD Cg_GCCSD.
Import ListNotations.
Local Open Scope nat_scope. Local Open Scope string_scope.

(** * C74 *)
(** Take a restricted calculation [eB] with amplitudes [amps false] and multipliers [amps true], for an ansatz with
    single and double excitations and couplings to bosons, and convert it with [UEBCC.from_rebcc].  Call a generated
    unrestricted function (energy, amplitude or Lambda update) with the converted amplitudes, [u], and the integrals
    of the unrestricted calculation.  The results are those of the restricted function called with the original
    amplitudes, rearranged by table [closed_shell_results]: equal energies, and residuals related as the amplitudes are. *)
Theorem C74_converted_calculation_agrees : forall name p q, In (name, (p, q)) restricted_unrestricted ->
  forall (F : fld) sz, characteristic_zero F -> splits sz closed_split ->
  forall method1 method2 path1 path2, path_ok path1 -> path_ok path2 ->
  forall a amps u (eB e1 e2 : env F), singles_doubles a -> symmetric sz spatial_symmetries spatial eB -> restricted_amplitudes sz amps eB ->
  (forall lams, from_rebcc F lams a (amps lams) = Ok (u lams)) ->
  args_ok sz (p_in p) e1 -> (forall x cs, In (x, cs) (p_in p) -> given_by sz id_split restricted eB x cs (tens F (e1 x))) ->
  args_ok sz (p_in q) e2 -> unrestricted_arguments sz eB u (p_in q) e2 ->
  exists r1 r2, run method1 path1 sz p e1 = Ok r1 /\ run method2 path2 sz q e2 = Ok r2 /\
    forall k x cs, nth_error (p_out q) k = Some (x, cs) -> given_by sz closed_split closed_shell_results (results F (p_out p) r1) x cs (entry F r2 k).
Proof. exact from_rebcc_same. Qed.
Print Assumptions C74_converted_calculation_agrees.

(** The conversion succeeds whenever the amplitudes are there, and all the hypotheses can be met, for all values of
    the tensors. *)
Theorem C74_arguments_exist : forall name p q, In (name, (p, q)) restricted_unrestricted ->
  forall (F : fld) sz, characteristic_zero F -> splits sz closed_split ->
  forall a amps (eB : env F), singles_doubles a -> symmetric sz spatial_symmetries spatial eB -> restricted_amplitudes sz amps eB ->
  (forall lams x nm, In (x, nm) (plain_names lams) -> exists tn, eB x = Some tn) ->
  (forall lams x cs nm comb, In (x, cs) (p_in q) -> In (x, (nm, comb)) (block_names lams) -> In (str nm) (amplitude_names lams a)) ->
  exists u (e1 e2 : env F), (forall lams, from_rebcc F lams a (amps lams) = Ok (u lams)) /\
    args_ok sz (p_in p) e1 /\ (forall x cs, In (x, cs) (p_in p) -> given_by sz id_split restricted eB x cs (tens F (e1 x))) /\
    args_ok sz (p_in q) e2 /\ unrestricted_arguments sz eB u (p_in q) e2.
Proof. exact from_rebcc_exists. Qed.
Print Assumptions C74_arguments_exist.

(** The blocks of the converted amplitudes.  Single excitations: both spins have the restricted amplitude. *)
Theorem C74_singles : forall (F : fld) (t : arr F) no nv, wf t -> shp t = [no; nv] ->
  spin_blocks_of F (str "ov") 1 t = Ok [(str "bb", t); (str "aa", t)].
Proof. exact blocks_singles. Qed.
Print Assumptions C74_singles.
(** Double excitations: opposite spins have the restricted amplitude, equal spins half its antisymmetric part. *)
Theorem C74_doubles : forall (F : fld), radd r1 r1 <> (r0 : F) -> forall (t : arr F) no nv, wf t -> shp t = [no; no; nv; nv] ->
  exists x, spin_blocks_of F (str "oovv") 2 t = Ok [(str "aaaa", x); (str "abab", t); (str "bbbb", x)] /\ wf x /\ shp x = shp t /\
    forall i j a b, (i < no)%nat -> (j < no)%nat -> (a < nv)%nat -> (b < nv)%nat -> aget r0 x [i; j; a; b] = same_spin_doubles F (aget r0 t) i j a b.
Proof. exact blocks_doubles. Qed.
Print Assumptions C74_doubles.

(** Which ansatzes: every named ansatz without triple excitations. *)
Theorem C74_ansatzes : forall n, In n sd_names -> from_string (str n) false = Ok (ansatz_of n) /\ singles_doubles (ansatz_of n).
Proof. exact sd_all. Qed.
Print Assumptions C74_ansatzes.

(** Electron-boson coupled cluster with two occupied orbitals, one virtual orbital, one boson. *)
Example C74_example : In ("CCSD_SD_1_2.update_lams", (RCCSD_SD_1_2_update_lams, UCCSD_SD_1_2_update_lams)) restricted_unrestricted /\
  characteristic_zero Qc_fld /\ splits closed_sz closed_split /\ singles_doubles sd /\
  symmetric closed_sz spatial_symmetries spatial ex_restricted /\ restricted_amplitudes closed_sz ex_ramps ex_restricted /\
  (forall lams x nm, In (x, nm) (plain_names lams) -> exists tn, ex_restricted x = Some tn) /\
  (forall lams x cs nm comb, In (x, cs) (p_in UCCSD_SD_1_2_update_lams) -> In (x, (nm, comb)) (block_names lams) -> In (str nm) (amplitude_names lams sd)) /\
  tens Qc_fld (ex_restricted n_t2) [0; 1; 0; 0] <> r0.
Proof.
  split; [unfold restricted_unrestricted; cbn; tauto|]. split; [exact Qc_characteristic_zero|]. split; [exact closed_splits|]. split; [apply sd_all; mem|].
  split; [exact closed_symmetric|]. split; [exact ex_ramps_ok|]. split; [exact ex_ramps_all|]. split; [|apply ex_nonzero].
  intros lams x cs nm comb _ H. destruct lams; cbn [block_names In] in H; repeat (destruct H as [H|H]; [injection H as <- <- <-; mem|]); destruct H.
Qed.

(** Triples: converting a restricted calculation to a general one gives twice the amplitude of two alpha electrons and
    one beta electron, and an amplitude that is not antisymmetric. *)
Theorem C74_triples_refuted : exists g t, from_rebcc_general Qc_fld ab_slices (fun _ => 4) 0 false (ansatz_of "CCSDT") ex_triples = Ok g /\
  dget pystr_eq_dec (str "t3") g = Some t /\
  (forall i j k a b c, inb [2; 2; 2; 2; 2; 2] [i; j; k; a; b; c] ->
     aget r0 ex_t3 [k; j; i; a; b; c] = ropp (aget r0 ex_t3 [i; j; k; a; b; c]) /\ aget r0 ex_t3 [i; j; k; c; b; a] = ropp (aget r0 ex_t3 [i; j; k; a; b; c])) /\
  aget r0 ex_t3 [0; 0; 1; 0; 0; 1] = r1 /\ aget r0 t [0; 2; 1; 0; 2; 1] = radd r1 r1 /\
  aget r0 t [0; 1; 2; 0; 2; 1] <> ropp (aget r0 t [0; 2; 1; 0; 2; 1]).
Proof. exact triples_wrong. Qed.
Print Assumptions C74_triples_refuted.

(** * C75 *)
(** The same for [GEBCC.from_uebcc], for every arrangement of the alpha and beta orbitals among the spin orbitals
    ([slices]): general functions called with the converted amplitudes and the spin-orbital integrals give the results
    of the unrestricted functions. *)
Theorem C75_converted_calculation_agrees : forall name p q, In (name, (p, q)) unrestricted_general ->
  forall (F : fld) sz, characteristic_zero F -> splits sz spin_split ->
  forall slices size, spin_slices sz slices size ->
  forall method1 method2 path1 path2, path_ok path1 -> path_ok path2 ->
  forall a amps g (eB e1 e2 : env F), singles_doubles a -> symmetric sz spin_blocks_symmetries spin_blocks eB -> unrestricted_amplitudes sz amps eB ->
  (forall lams, @from_uebcc F slices size (sz 3) lams a (amps lams) = Ok (g lams)) ->
  args_ok sz (p_in p) e1 -> (forall x cs, In (x, cs) (p_in p) -> given_by sz id_split unrestricted eB x cs (tens F (e1 x))) ->
  args_ok sz (p_in q) e2 -> general_arguments sz slices eB g (p_in q) e2 ->
  exists r1 r2, run method1 path1 sz p e1 = Ok r1 /\ run method2 path2 sz q e2 = Ok r2 /\
    forall k x cs, nth_error (p_out q) k = Some (x, cs) -> given_at sz spin_split (spin_positions slices) spin_orbital_results (results F (p_out p) r1) x cs (entry F r2 k).
Proof. exact from_uebcc_same. Qed.
Print Assumptions C75_converted_calculation_agrees.

Theorem C75_arguments_exist : forall name p q, In (name, (p, q)) unrestricted_general ->
  forall (F : fld) sz, characteristic_zero F -> splits sz spin_split ->
  forall slices size, spin_slices sz slices size ->
  forall a amps (eB : env F), singles_doubles a -> symmetric sz spin_blocks_symmetries spin_blocks eB -> unrestricted_amplitudes sz amps eB ->
  (forall lams x nm, In (x, nm) (block_names lams) -> exists tn, eB x = Some tn) ->
  (forall lams x cs nm, In (x, cs) (p_in q) -> In (x, nm) (plain_names lams) -> In (str nm) (amplitude_names lams a)) ->
  exists g (e1 e2 : env F), (forall lams, @from_uebcc F slices size (sz 3) lams a (amps lams) = Ok (g lams)) /\
    args_ok sz (p_in p) e1 /\ (forall x cs, In (x, cs) (p_in p) -> given_by sz id_split unrestricted eB x cs (tens F (e1 x))) /\
    args_ok sz (p_in q) e2 /\ general_arguments sz slices eB g (p_in q) e2.
Proof. exact from_uebcc_exists. Qed.
Print Assumptions C75_arguments_exist.

(** Entry by entry, for all spins [s], [t], ... and all orbitals of these spins.  Single excitations, with any number
    [nb] of bosons: *)
Theorem C75_singles : forall (F : fld) slices size nbos unique nb key k1 k2 blocks (aa bb : arr F), skipn nb key = [k1; k2] ->
  alpha_beta slices size k1 -> alpha_beta slices size k2 ->
  dget pystr_eq_dec (str "aa") blocks = Some aa -> dget pystr_eq_dec (str "bb") blocks = Some bb -> wf aa -> wf bb ->
  shp aa = block_shape slices nbos nb (str "aa") [k1; k2] -> shp bb = block_shape slices nbos nb (str "bb") [k1; k2] ->
  exists r, general_amp F slices size nbos unique nb 1 key blocks = Ok r /\ wf r /\ shp r = (repeat nbos nb ++ [size k1; size k2])%list /\
    forall s t x i a, inb (repeat nbos nb) x -> (i < List.length (slices (spin_char s) k1))%nat -> (a < List.length (slices (spin_char t) k2))%nat ->
      aget r0 r (x ++ [spin_orbital_at slices s k1 i; spin_orbital_at slices t k2 a])%list = general_singles F (aget r0 aa) (aget r0 bb) s t x i a.
Proof. exact singles_ok. Qed.
Print Assumptions C75_singles.
(** Double excitations: *)
Theorem C75_doubles : forall (F : fld) slices size nbos unique k1 k2 blocks (aaaa abab bbbb : arr F), unique = true ->
  alpha_beta slices size k1 -> alpha_beta slices size k2 ->
  dget pystr_eq_dec (str "aaaa") blocks = Some aaaa -> dget pystr_eq_dec (str "abab") blocks = Some abab -> dget pystr_eq_dec (str "bbbb") blocks = Some bbbb ->
  wf aaaa -> wf abab -> wf bbbb ->
  shp aaaa = block_shape slices nbos 0 (str "aaaa") [k1; k1; k2; k2] -> shp abab = block_shape slices nbos 0 (str "abab") [k1; k1; k2; k2] -> shp bbbb = block_shape slices nbos 0 (str "bbbb") [k1; k1; k2; k2] ->
  exists r, general_amp F slices size nbos unique 0 2 [k1; k1; k2; k2] blocks = Ok r /\ wf r /\ shp r = [size k1; size k1; size k2; size k2] /\
    forall s t u v i j a b, (i < List.length (slices (spin_char s) k1))%nat -> (j < List.length (slices (spin_char t) k1))%nat ->
      (a < List.length (slices (spin_char u) k2))%nat -> (b < List.length (slices (spin_char v) k2))%nat ->
      aget r0 r [spin_orbital_at slices s k1 i; spin_orbital_at slices t k1 j; spin_orbital_at slices u k2 a; spin_orbital_at slices v k2 b] =
      general_doubles F (aget r0 aaaa) (aget r0 abab) (aget r0 bbbb) s t u v i j a b.
Proof. exact doubles_ok. Qed.
Print Assumptions C75_doubles.

(** Two alpha electrons and one beta electron, two virtual orbitals of each spin; the spin orbitals alternate. *)
Example C75_example : In ("CCSD.update_lams", (UCCSD_update_lams, GCCSD_update_lams)) unrestricted_general /\
  characteristic_zero Qc_fld /\ splits spin_sz spin_split /\ spin_slices spin_sz ex_slices ex_size /\ singles_doubles (ansatz_of "CCSD") /\
  symmetric spin_sz spin_blocks_symmetries spin_blocks ex_unrestricted /\ unrestricted_amplitudes spin_sz ex_uamps ex_unrestricted /\
  (forall lams x nm, In (x, nm) (block_names lams) -> exists tn, ex_unrestricted x = Some tn) /\
  (forall lams x cs nm, In (x, cs) (p_in GCCSD_update_lams) -> In (x, nm) (plain_names lams) -> In (str nm) (amplitude_names lams (ansatz_of "CCSD"))) /\
  tens Qc_fld (ex_unrestricted n_t2'aaaa) [0; 1; 0; 1] <> r0.
Proof.
  split; [unfold unrestricted_general; cbn; tauto|]. split; [exact Qc_characteristic_zero|]. split; [exact spin_splits|]. split; [exact ex_slices_ok|]. split; [apply sd_all; mem|].
  split; [exact spin_symmetric|]. split; [exact ex_uamps_ok|]. split; [exact ex_uamps_all|]. split; [|apply ex_nonzero].
  intros lams x cs nm Hx H. destruct lams; cbn [plain_names In] in H;
  repeat (destruct H as [H|H]; [injection H as <- <-; first [mem; fail|cbv in Hx; repeat (destruct Hx as [Hx|Hx]; [discriminate Hx|]); destruct Hx]|]); destruct H.
Qed.

(** Triples: with three alpha electrons and two beta electrons, and one virtual orbital of each spin, the conversion
    fails. *)
Theorem C75_triples_refuted : @from_uebcc Qc_fld oe_slices (fun k => if (k =? chr_of "o")%nat then 5 else 2) 0 false (ansatz_of "CCSDT") oe_triples = Err BroadcastError /\
  alpha_beta oe_slices (fun k => if (k =? chr_of "o")%nat then 5 else 2) (chr_of "o") /\ alpha_beta oe_slices (fun k => if (k =? chr_of "o")%nat then 5 else 2) (chr_of "v") /\
  generate_spin_combinations 3 false true = map str ["aaaaaa"; "babbab"; "abaaba"; "bbbbbb"].
Proof. exact triples_fail. Qed.
Print Assumptions C75_triples_refuted.

(** * C76 *)
(** List the orbitals of every kind in another order: orbital [i] at position [at_ c i].  Every generated function, called
    with the tensors in that order, returns its results in that order. *)
Theorem C76_order_of_orbitals : forall name p, In (name, p) generated -> 
  forall (F : fld) sz at_, reordering sz at_ ->
  forall method1 method2 path1 path2 (e1 e2 : env F), path_ok path1 -> path_ok path2 ->
  args_ok sz (p_in p) e1 -> args_ok sz (p_in p) e2 ->
  (forall x cs, In (x, cs) (p_in p) -> forall idx, inb (map sz cs) idx -> tens F (e2 x) idx = tens F (e1 x) (moved at_ cs idx)) ->
  exists r1 r2, run method1 path1 sz p e1 = Ok r1 /\ run method2 path2 sz p e2 = Ok r2 /\
    forall k x cs, nth_error (p_out p) k = Some (x, cs) -> forall idx, inb (map sz cs) idx -> entry F r2 k idx = entry F r1 k (moved at_ cs idx).
Proof. exact order_of_orbitals. Qed.
Print Assumptions C76_order_of_orbitals.

(** The spin orbitals of C64 in any order: orbital [i] of block [b] at position [pos c b i]. *)
Theorem C76_spin_orbitals_in_any_order : forall name p q, In (name, (p, q)) unrestricted_general ->
  forall (F : fld) sz, characteristic_zero F -> splits sz spin_split ->
  forall pos, positions sz spin_split pos ->
  forall method1 method2 path1 path2, path_ok path1 -> path_ok path2 ->
  forall eB e1 e2 : env F, symmetric sz spin_blocks_symmetries spin_blocks eB ->
  args_ok sz (p_in p) e1 -> (forall x cs, In (x, cs) (p_in p) -> given_by sz id_split unrestricted eB x cs (tens F (e1 x))) ->
  args_ok sz (p_in q) e2 -> (forall x cs, In (x, cs) (p_in q) -> given_at sz spin_split pos spin_orbital eB x cs (tens F (e2 x))) ->
  exists r1 r2, run method1 path1 sz p e1 = Ok r1 /\ run method2 path2 sz q e2 = Ok r2 /\
    forall k x cs, nth_error (p_out q) k = Some (x, cs) -> given_at sz spin_split pos spin_orbital_results (results F (p_out p) r1) x cs (entry F r2 k).
Proof. exact spin_orbital_agree_any. Qed.
Print Assumptions C76_spin_orbitals_in_any_order.

(** Two occupied orbitals exchanged; interleaved spins. *)
Example C76_example : reordering closed_sz (fun c i => if c =? 0 then 1 - i else i)%nat /\ positions spin_sz spin_split (spin_positions ex_slices).
Proof.
  split; [|exact (spin_positions_ok spin_splits ex_slices_ok)].
  intros [|c]; [apply Permutation.perm_swap|]. cbn [Nat.eqb]. rewrite map_id. apply Permutation.Permutation_refl.
Qed.
