(** The generated equations (ebcc/codegen). *)
From Coq Require Import String.
From Verif Require Import Base Alg ArrModel EinsumModel EinPathModel CgModel CgSpec CgNames CgAll Cg_UDFCCD Cg_RMP2 CgRun CgAllRun CgAllRot CgEx.
Local Open Scope string_scope. Local Open Scope list_scope. Local Open Scope nat_scope.

(** Every generated function, called with arrays whose extents match the kinds of their axes, runs to
    the end whatever the numbers of orbitals, the contraction method and the contraction paths; its
    results have the documented axes; and each argument is still bound to the same array afterwards, unless it is an
    intermediate (a member of [ints]) which the function deletes. *)
Theorem C61_generated_functions_run : forall name p, In (name, p) generated ->
  forall (F : fld) method path sz (e : env F), path_ok path -> args_ok sz (p_in p) e ->
  exists e' results, exec method path sz e (p_body p) = Ok e' /\ run method path sz p e = Ok results /\
    Forall2 (fun (o : ref * list cls) a => wf a /\ shp a = map sz (snd o)) (p_out p) results /\
    (forall x cs, In (x, cs) (p_in p) -> e' x = e x \/ is_cached x = true /\ In (Del x) (p_body p)).
Proof. exact generated_run. Qed.
Print Assumptions C61_generated_functions_run.

(** Two functions never succeed.  [UDFCCD.make_rdm1_f] reads [t2.aa], which unrestricted doubles amplitudes
    do not have (their blocks are aaaa, abab and bbbb). *)
Theorem C61_udfccd_make_rdm1_refuted : forall (F : fld) method path sz (e : env F),
  path_ok path -> args_ok sz (p_in UDFCCD_make_rdm1_f) e -> e n_t2'aa = None ->
  run method path sz UDFCCD_make_rdm1_f e = Err NameError.
Proof. exact udfccd_fails. Qed.
Print Assumptions C61_udfccd_make_rdm1_refuted.

(** [UDFCCD.make_rdm2_f] assigns a member of [rdm2.aabb] (line 900), a Namespace which it never creates (the
    block it does create, and later assembles, is called [rdm2.abab]). *)
Theorem C61_udfccd_make_rdm2_refuted : forall (F : fld) method path sz (e : env F),
  path_ok path -> args_ok sz (p_in UDFCCD_make_rdm2_f) e -> e n_rdm2'aabb = None ->
  run method path sz UDFCCD_make_rdm2_f e = Err NameError.
Proof. exact udfccd_fails_two. Qed.
Print Assumptions C61_udfccd_make_rdm2_refuted.

(** The restricted MP2 energy of given amplitudes and integrals. *)
Example C61_example : In ("RMP2.energy", RMP2_energy) generated /\ path_ok ex_path /\ args_ok ex_sz (p_in RMP2_energy) ex_env /\
  exists r, run None ex_path ex_sz RMP2_energy ex_env = Ok [r].
Proof.
  split; [|split; [exact ex_path_ok|split; [exact ex_args|]]].
  - unfold generated. repeat (apply in_or_app; first [left; cbn; tauto|right]).
  - pose proof ex_run as H. destruct (run None ex_path ex_sz RMP2_energy ex_env) as [[|a [|b l]]|]; try discriminate H. exists a. reflexivity.
Qed.

(** Rotating the orbitals of every kind (occupied, virtual, of either spin, active, auxiliary, bosonic) by
    orthogonal matrices rotates the results: if the arguments of the second call are those of the first
    in the rotated orbitals, so are the results. *)
Theorem C62_results_rotate : forall name p, In (name, p) generated ->
  forall (F : fld) sz U, orthogonal F sz U ->
  forall method1 method2 path1 path2 (e1 e2 : env F), path_ok path1 -> path_ok path2 ->
  args_ok sz (p_in p) e1 -> args_ok sz (p_in p) e2 ->
  (forall x cs, In (x, cs) (p_in p) -> forall idx, inb (map sz cs) idx -> tens F (e2 x) idx = rotated F sz U cs (tens F (e1 x)) idx) ->
  exists r1 r2, run method1 path1 sz p e1 = Ok r1 /\ run method2 path2 sz p e2 = Ok r2 /\
    forall k x cs, nth_error (p_out p) k = Some (x, cs) -> forall idx, inb (map sz cs) idx ->
      entry F r2 k idx = rotated F sz U cs (entry F r1 k) idx.
Proof. exact generated_rotate. Qed.
Print Assumptions C62_results_rotate.

(** In particular energies do not change. *)
Theorem C62_energies_invariant : forall name p, In (name, p) generated ->
  forall (F : fld) sz U, orthogonal F sz U ->
  forall method1 method2 path1 path2 (e1 e2 : env F), path_ok path1 -> path_ok path2 ->
  args_ok sz (p_in p) e1 -> args_ok sz (p_in p) e2 ->
  (forall x cs, In (x, cs) (p_in p) -> forall idx, inb (map sz cs) idx -> tens F (e2 x) idx = rotated F sz U cs (tens F (e1 x)) idx) ->
  exists r1 r2, run method1 path1 sz p e1 = Ok r1 /\ run method2 path2 sz p e2 = Ok r2 /\
    forall k x, nth_error (p_out p) k = Some (x, []) -> entry F r2 k [] = entry F r1 k [].
Proof. exact generated_invariant. Qed.
Print Assumptions C62_energies_invariant.

(** The MP2 energy again, with the virtual orbitals turned by ninety degrees. *)
Example C62_example : orthogonal Qc_fld ex_sz ex_U /\ args_ok ex_sz (p_in RMP2_energy) ex_env /\ args_ok ex_sz (p_in RMP2_energy) ex_env' /\
  (forall x cs, In (x, cs) (p_in RMP2_energy) -> forall idx, inb (map ex_sz cs) idx ->
    tens Qc_fld (ex_env' x) idx = rotated Qc_fld ex_sz ex_U cs (tens Qc_fld (ex_env x)) idx).
Proof. exact (conj ex_U_orthogonal (conj ex_args (conj ex_args' ex_rotated))). Qed.
