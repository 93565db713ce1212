(** The checks of CgRun evaluated on all translated functions. *)
From Coq Require Import List String.
From Verif Require Import Base Alg ArrModel CgModel CgSpec CgNames CgRun CgAll Cg_UDFCCD.
Import ListNotations.
Lemma generated_checked : forallb (fun q => check_run (snd q)) generated = true.
Proof. vm_compute. reflexivity. Qed.

Lemma generated_run : forall (name : string) p, In (name, p) generated ->
  forall (F : fld) method path sz (e : env F), path_ok path -> args_ok sz (p_in p) e ->
  exists e' results, exec method path sz e (p_body p) = Ok e' /\ run method path sz p e = Ok results /\
    Forall2 (fun (o : ref * list cls) a => wf a /\ shp a = map sz (snd o)) (p_out p) results /\
    (forall x cs, In (x, cs) (p_in p) -> e' x = e x \/ is_cached x = true /\ In (Del x) (p_body p)).
Proof.
  intros name p H F method path sz e. apply check_run_sound. exact (check_all_sound generated generated_checked name p H).
Qed.

Lemma udfccd_fails (F : fld) method path sz (e : env F) :
  path_ok path -> args_ok sz (p_in UDFCCD_make_rdm1_f) e -> e n_t2'aa = None ->
  run method path sz UDFCCD_make_rdm1_f e = Err NameError.
Proof.
  intros Hp Ha Hn.
  refine (@fails_at_end F method path sz (p_in UDFCCD_make_rdm1_f) (removelast (p_body UDFCCD_make_rdm1_f)) n_rdm1'aa'oo n_t2'aa
    _ _ _ (p_out UDFCCD_make_rdm1_f) e Hp Ha Hn); [vm_compute; reflexivity|vm_compute; reflexivity].
Qed.

Lemma udfccd_fails_two (F : fld) method path sz (e : env F) :
  path_ok path -> args_ok sz (p_in UDFCCD_make_rdm2_f) e -> e n_rdm2'aabb = None ->
  run method path sz UDFCCD_make_rdm2_f e = Err NameError.
Proof.
  intros Hp Ha Hn.
  refine (@fails_at_end F method path sz (p_in UDFCCD_make_rdm2_f) (removelast (p_body UDFCCD_make_rdm2_f)) n_rdm2'aabb'ooov n_rdm2'aabb
    _ _ _ (p_out UDFCCD_make_rdm2_f) e Hp Ha Hn); [vm_compute; reflexivity|vm_compute; reflexivity].
Qed.
