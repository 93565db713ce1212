(** Property theorems for tailored (C38) and externally corrected (C39) calculations. *)
From Coq Require Import Sorted String QArith_base.
From Coq Require Qcanon.
From Verif Require Import Base ListAux Alg ArrModel ArrProofs PermModel EinsumModel SpaceModel AnsatzModel AnsatzRanks VecModel VecSpec CcModel CcSpec CcThms CcUThms CcEx
  ExtModel ExtSpec ExtProofs ExtThms ExtCorr ExtCtx ExtEx.
Set Implicit Arguments.
Local Open Scope string_scope.
Local Open Scope list_scope.
Local Open Scope nat_scope.

(** * C38 *)
(** C38, restricted and general: after an update, the block over active orbitals of every amplitude given is the one given,
    the rest is as updated, and other amplitudes are untouched.
    Missing: frozen orbitals before active ones, and amplitudes with axes over active orbitals only, for which the claim is
    false (below). *)
Theorem C38_active_block_partial : forall (F : fld) a s rspin fs (out active : dict pystr (tval F)),
  valid_space s -> frozen_beyond s (chr_of "O") -> frozen_beyond s (chr_of "V") ->
  fermionic_cluster_ranks a rspin Wt = Ok fs -> NoDup (map (fun e => fst (fst e)) fs) ->
  (forall name key n w, In (name, key, n) fs -> dget pystr_eq_dec name active = Some w ->
     incl key (str "ov") /\ exists v x, w = VArr v /\ dget pystr_eq_dec name out = Some (VArr x) /\ shaped s (map upper key) v /\ shaped s key x) ->
  exists out', rg_set_active a s rspin out active = Ok out' /\ map fst out' = map fst out /\
    (forall name key n v x, In (name, key, n) fs -> dget pystr_eq_dec name active = Some (VArr v) -> dget pystr_eq_dec name out = Some (VArr x) ->
       exists y, dget pystr_eq_dec name out' = Some (VArr y) /\ replaced (map (fun k => positions s (upper k)) key) x v y) /\
    (forall name, (forall key n, In (name, key, n) fs -> dget pystr_eq_dec name active = None) -> dget pystr_eq_dec name out' = dget pystr_eq_dec name out).
Proof. exact set_active_ok. Qed.
Print Assumptions C38_active_block_partial.

(** C38, unrestricted: the same for every spin block.  Missing: as above. *)
Theorem C38_active_block_unrestricted_partial : forall (F : fld) a sa sb fs (out active : dict pystr (tval F)),
  fermionic_cluster_ranks a false Wt = Ok fs -> NoDup (map (fun e => fst (fst e)) fs) ->
  (forall s, In s [sa; sb] -> valid_space s /\ frozen_beyond s (chr_of "O") /\ frozen_beyond s (chr_of "V")) ->
  (forall name key n w, In (name, key, n) fs -> dget pystr_eq_dec name active = Some w ->
     incl key (str "ov") /\ exists vs xs, w = VSpin vs /\ dget pystr_eq_dec name out = Some (VSpin xs) /\ NoDup (map fst xs) /\
       forall comb x, In (comb, x) xs -> incl comb (str "ab") /\ u_shaped sa sb comb key x /\
         exists v, dget pystr_eq_dec comb vs = Some v /\ u_shaped sa sb comb (map upper key) v) ->
  exists out', u_set_active a sa sb out active = Ok out' /\ map fst out' = map fst out /\
    (forall name key n vs xs, In (name, key, n) fs -> dget pystr_eq_dec name active = Some (VSpin vs) -> dget pystr_eq_dec name out = Some (VSpin xs) ->
       exists ys, dget pystr_eq_dec name out' = Some (VSpin ys) /\ map fst ys = map fst xs /\
         forall comb x v, dget pystr_eq_dec comb xs = Some x -> dget pystr_eq_dec comb vs = Some v ->
           exists y, dget pystr_eq_dec comb ys = Some y /\ replaced (u_positions sa sb comb (map upper key)) x v y) /\
    (forall name, (forall key n, In (name, key, n) fs -> dget pystr_eq_dec name active = None) -> dget pystr_eq_dec name out' = dget pystr_eq_dec name out).
Proof. exact u_set_active_ok. Qed.
Print Assumptions C38_active_block_unrestricted_partial.

(** C38 (and C39): in any program of updates, nested contexts, exceptions and handlers, every update is the one in force at that point
    of the program text; afterwards the plain update is back and every context object can be entered again.
    Missing: a context object entered inside itself, for which the claim is false (below). *)
Theorem C38_contexts_lexical_partial : forall (E N X : Type) (plain : update_fn E N) set_active (add : N -> X -> result N) corrections external get_eris complete
    (l : list (kind * N)) (p : cprog E N) fuel,
  well_nested external (nth_error l) p -> (forall i, In i (entered p) -> i < length l) -> depth p < fuel ->
  exists s, crun plain set_active add corrections external get_eris complete fuel p (start X l) =
      (fst (lexical set_active add corrections external get_eris complete (nth_error l) p plain), s,
       snd (lexical set_active add corrections external get_eris complete (nth_error l) p plain)) /\
    st_cur s = Plain /\ map (fun c => c_old c) (st_ctxs s) = map (fun _ => None) l.
Proof. exact program_lexical. Qed.
Print Assumptions C38_contexts_lexical_partial.

(** C38 is violated with frozen orbitals.  A frozen, an active and an inactive occupied orbital: another block is overwritten. *)
Theorem C38_frozen_refuted : exists a s (out active out' : dict pystr (tval Qc_fld)) x v y,
  valid_space s /\ In (str "t1", str "ov", 1) ext_fs /\ fermionic_cluster_ranks a true Wt = Ok ext_fs /\
  active = [(str "t1", VArr v)] /\ out = [(str "t1", VArr x)] /\ shaped s (str "OV") v /\ shaped s (str "ov") x /\
  rg_set_active a s true out active = Ok out' /\ dget pystr_eq_dec (str "t1") out' = Some (VArr y) /\
  ~ replaced (map (fun k => positions s (upper k)) (str "ov")) x v y.
Proof.
  exists ext_ansatz, (mkspace [true; true; true; false] [true; false; false; false] [false; true; false; true]).
  eexists _, _, _, (mkarr [2; 1] (qs [1; 2]%Z)), (mkarr [1; 1] (qs [7]%Z)), _.
  split; [vm_compute; reflexivity|]. split; [left; reflexivity|]. split; [vm_compute; reflexivity|]. split; [reflexivity|]. split; [reflexivity|].
  split; [split; vm_compute; reflexivity|]. split; [split; vm_compute; reflexivity|]. split; [vm_compute; reflexivity|]. split; [reflexivity|].
  intros (_ & _ & H & _). destruct (H [0; 0]) as [_ E]; [vm_compute; auto|]. apply (f_equal Qcanon.this) in E. vm_compute in E. discriminate.
Qed.
Print Assumptions C38_frozen_refuted.

(** ... and with a frozen core below an inactive orbital every update raises. *)
Theorem C38_frozen_core_refuted : exists a s (out active : dict pystr (tval Qc_fld)) x v,
  valid_space s /\ fermionic_cluster_ranks a true Wt = Ok ext_fs /\ active = [(str "t1", VArr v)] /\ out = [(str "t1", VArr x)] /\ shaped s (str "OV") v /\ shaped s (str "ov") x /\
  rg_set_active a s true out active = Err ValueError.
Proof.
  exists ext_ansatz, (mkspace [true; true; true; false] [true; false; false; false] [false; false; true; true]).
  eexists _, _, (mkarr [2; 1] (qs [1; 2]%Z)), (mkarr [1; 1] (qs [7]%Z)).
  split; [vm_compute; reflexivity|]. split; [vm_compute; reflexivity|]. split; [reflexivity|]. split; [reflexivity|]. split; [split; vm_compute; reflexivity|]. split; [split; vm_compute; reflexivity|].
  vm_compute. reflexivity.
Qed.
Print Assumptions C38_frozen_core_refuted.

(** C38 is violated for amplitudes with axes over active orbitals only: the positions of the full axes are used. *)
Theorem C38_active_axes_refuted : exists a s (out active : dict pystr (tval Qc_fld)) key x v fs,
  valid_space s /\ (forall p, p < length (sp_occupied s) -> frozen_at s p = false) /\
  fermionic_cluster_ranks a true Wt = Ok fs /\ In (str "t3", key, 3) fs /\
  active = [(str "t3", VArr v)] /\ out = [(str "t3", VArr x)] /\ shaped s (map upper key) v /\ shaped s key x /\
  rg_set_active a s true out active = Err ValueError.
Proof.
  exists (mka (str "CCSDt") [] 0 0 false), (mkspace [true; true; false] [false; false; false] [false; true; true]).
  eexists _, _, (str "ooOvvV"), (full [2; 2; 1; 1; 1; 1] (q 1)), (full [1; 1; 1; 1; 1; 1] (q 2)), _.
  split; [vm_compute; reflexivity|]. split; [intros [|[|[|p]]] H; try reflexivity; cbn in H; lia|]. split; [vm_compute; reflexivity|]. split; [right; right; left; reflexivity|].
  split; [reflexivity|]. split; [reflexivity|]. split; [split; vm_compute; reflexivity|]. split; [split; vm_compute; reflexivity|]. vm_compute. reflexivity.
Qed.
Print Assumptions C38_active_axes_refuted.

(** C38 is violated when a context object is entered inside itself: whatever the recursion limit and the plain update, an update
    exceeds the limit, and after both contexts the plain update is not back. *)
Theorem C38_self_nesting_refuted : forall (plain : update_fn nat nat) set_active (add : nat -> nat -> result nat) corrections external get_eris complete user fuel,
  exists s, crun plain set_active add corrections external get_eris complete fuel twice (start nat [(Tailor, user)]) = ([Err RuntimeError], s, false) /\ st_cur s = Wrap 0 None None.
Proof. exact twice_runs. Qed.
Print Assumptions C38_self_nesting_refuted.

(** The hypotheses hold for both spins below, and the blocks are where they should be. *)
Example C38_case : exists out', rg_set_active ext_ansatz ext_space true ext_out ext_active = Ok out' /\
  dget pystr_eq_dec (str "t1") out' = Some (VArr (mkarr [2; 2] (qs [1; 2; 77; 4]%Z))) /\ positions ext_space (chr_of "O") = [1] /\ positions ext_space (chr_of "V") = [0].
Proof.
  assert (FO : frozen_beyond ext_space (chr_of "O")) by (apply ext_frozen; vm_compute; try tauto; discriminate).
  assert (FV : frozen_beyond ext_space (chr_of "V")) by (apply ext_frozen; vm_compute; try tauto; discriminate).
  destruct (@C38_active_block_partial Qc_fld ext_ansatz ext_space true ext_fs ext_out ext_active ext_valid FO FV (ext_ranks true) ext_nodup ext_active_fits) as (out' & E & _).
  exists out'. split; [exact E|]. split; [|split; reflexivity]. vm_compute in E. injection E as <-. vm_compute. reflexivity.
Qed.
Example C38_unrestricted_case : exists out', u_set_active ext_ansatz ext_space ext_space_b ext_uout ext_uactive = Ok out' /\
  dget pystr_eq_dec (str "t1") out' = Some (VSpin [(str "aa", mkarr [2; 2] (qs [1; 2; 77; 4]%Z)); (str "bb", mkarr [1; 2] (qs [88; 6]%Z))]).
Proof.
  destruct (@C38_active_block_unrestricted_partial Qc_fld ext_ansatz ext_space ext_space_b ext_fs ext_uout ext_uactive (ext_ranks false) ext_nodup ext_spaces ext_uactive_fits) as (out' & E & _).
  exists out'. split; [exact E|]. vm_compute in E. injection E as <-. vm_compute. reflexivity.
Qed.
(** Two tailors, one inside the other, an exception in the inner one, and the outer one entered again. *)
Definition nested_program : cprog nat nat :=
  CTry (CWith 0 (CCall None (Some 1) (CWith 1 (CCall None (Some 2) CRaise) CDone)) CDone) (CCall None (Some 3) (CWith 0 (CCall None (Some 4) CDone) CDone)).
Example C38_nested_case :
  let external := fun x => Ok (x, x) in
  let set_active := fun x v => Ok (10 * x + v) in
  well_nested external (nth_error [(Tailor, 7); (Tailor, 8)]) nested_program /\
  fst (lexical set_active (fun x (_ : nat) => Ok x) (fun _ _ _ => Err KeyError) external (Ok 0) (fun a _ => a) (nth_error [(Tailor, 7); (Tailor, 8)]) nested_program (fun (_ : option nat) a => match a with Some x => Ok x | None => Err ValueError end))
    = [Ok 17; Ok 278; Ok 3; Ok 47].
Proof. split; [|vm_compute; reflexivity]. cbn. repeat split; try tauto; try lia; intros; repeat (match goal with H : _ \/ _ |- _ => destruct H as [H|H] end); subst; try contradiction; try exact I; try lia. Qed.

(** * C39 *)
(** C39, restricted and general: an update in the context adds to each element of an amplitude the elements of the corrections addressing it, and nothing else.
    Missing: frozen orbitals before orbitals of the classes corrected, for which the claim is false (below). *)
Theorem C39_adds_blocks_partial : forall (F : fld) s (out : dict pystr (tval F)) (e : exts F), valid_space s -> NoDup (map fst e) ->
  (forall name blocks w, In (name, blocks) e -> dget pystr_eq_dec name out = Some w -> exists x, w = VArr x /\ wf x /\
     forall key v, In (key, v) blocks -> incl key class_letters /\ (forall k, In k key -> frozen_beyond s k) /\ shaped s key v /\
       shp x = map (fun k => length (orbitals s (sector_letter s k))) key) ->
  exists out', rg_add s out e = Ok out' /\ map fst out' = map fst out /\
    (forall name, ~ In name (map fst e) -> dget pystr_eq_dec name out' = dget pystr_eq_dec name out) /\
    (forall name blocks x, In (name, blocks) e -> dget pystr_eq_dec name out = Some (VArr x) ->
       exists y, dget pystr_eq_dec name out' = Some (VArr y) /\ wf y /\ shp y = shp x /\
         forall idx, inb (shp x) idx -> aget r0 y idx = radd (aget r0 x idx) (contributions (map (positions s)) blocks idx)).
Proof. exact rg_add_ok. Qed.
Print Assumptions C39_adds_blocks_partial.

(** C39, unrestricted.  Missing: as above. *)
Theorem C39_adds_blocks_unrestricted_partial : forall (F : fld) sa sb (out : dict pystr (tval F)) (e : uexts F), valid_space sa -> valid_space sb -> NoDup (map fst e) ->
  (forall name combs w, In (name, combs) e -> dget pystr_eq_dec name out = Some w -> NoDup (map fst combs) /\ exists xs, w = VSpin xs /\
     forall comb blocks, In (comb, blocks) combs -> incl comb (str "ab") /\ exists x, dget pystr_eq_dec comb xs = Some x /\ wf x /\
     forall key v, In (key, v) blocks -> incl key class_letters /\ (forall sk, In sk (combine comb key) -> frozen_beyond (spin_space_of sa sb (fst sk)) (snd sk)) /\
       u_shaped sa sb comb key v /\ shp x = map (fun sk => length (orbitals (spin_space_of sa sb (fst sk)) (sector_letter (spin_space_of sa sb (fst sk)) (snd sk)))) (combine comb key)) ->
  exists out', u_add sa sb out e = Ok out' /\ map fst out' = map fst out /\
    (forall name, ~ In name (map fst e) -> dget pystr_eq_dec name out' = dget pystr_eq_dec name out) /\
    (forall name combs xs, In (name, combs) e -> dget pystr_eq_dec name out = Some (VSpin xs) ->
       exists ys, dget pystr_eq_dec name out' = Some (VSpin ys) /\ map fst ys = map fst xs /\
         (forall comb, ~ In comb (map fst combs) -> dget pystr_eq_dec comb ys = dget pystr_eq_dec comb xs) /\
         forall comb blocks x, In (comb, blocks) combs -> dget pystr_eq_dec comb xs = Some x ->
           exists y, dget pystr_eq_dec comb ys = Some y /\ wf y /\ shp y = shp x /\
             forall idx, inb (shp x) idx -> aget r0 y idx = radd (aget r0 x idx) (contributions (u_positions sa sb comb) blocks idx)).
Proof. exact u_add_ok. Qed.
Print Assumptions C39_adds_blocks_unrestricted_partial.

(** C39, restricted and general: the corrections are the residuals divided by the denominators of their blocks. *)
Theorem C39_corrections : forall (F : fld) (c : cc F) rspin sz eps fs (res : exts F),
  fermionic_cluster_ranks (cc_ansatz c) rspin Wt = Ok fs -> NoDup (map (fun e => fst (fst e)) fs) -> residual_names fs res ->
  (forall nm blocks, In (nm, blocks) res -> NoDup (map fst blocks) /\ forall key v, In (key, v) blocks -> key <> [] /\ length key <= 26 /\ wf v /\ shp v = map sz key /\
     forall k, In k key -> In k (str "oOivVab") /\ class_energies (cc_omega c) (cc_fock c) k (sz k) (eps k)) ->
  exists out, rg_corrections c rspin res = Ok out /\
    (forall name, dget pystr_eq_dec name out <> None <-> exists e, In e fs /\ name = fst (fst e) /\ In (name ++ str "new") (map fst res)) /\
    forall e blocks, In e fs -> dget pystr_eq_dec (fst (fst e) ++ str "new") res = Some blocks ->
      exists bs, dget pystr_eq_dec (fst (fst e)) out = Some bs /\ map fst bs = map fst blocks /\
        forall key v, dget pystr_eq_dec key blocks = Some v ->
          exists x, dget pystr_eq_dec key bs = Some x /\ wf x /\ shp x = shp v /\
            forall idx, inb (shp v) idx -> aget r0 x idx = fdiv (aget r0 v idx) (denominator sz eps key idx).
Proof. exact rg_corrections_ok. Qed.
Print Assumptions C39_corrections.

(** C39, unrestricted: for antisymmetric residuals, the residuals divided by the denominators, times n!/2^(n-1) for every set of n equivalent axes
    (one for one or two). *)
Theorem C39_corrections_unrestricted : forall (F : fld) (c : ucc F) sz eps fs (res : uexts F),
  fermionic_cluster_ranks (u_ansatz c) false Wt = Ok fs -> NoDup (map (fun e => fst (fst e)) fs) -> residual_names fs res ->
  (forall e combs, In e fs -> dget pystr_eq_dec (fst (fst e) ++ str "new") res = Some combs ->
     forall comb, In comb (generate_spin_combinations (snd e) false true) -> exists blocks, dget pystr_eq_dec comb combs = Some blocks /\
       forall key v, In (key, v) blocks -> length key <= 26 /\ length key = 2 * snd e /\ wf v /\ shp v = spin_shape_of sz key comb /\ spin_antisymmetric key comb v /\
         forall k s, In (k, s) (combine key comb) -> In k (str "oOivVab") /\ class_energies (u_omega c) (u_fock c [s; s]) k (sz k s) (eps k s)) ->
  exists out, u_corrections c res = Ok out /\
    (forall name, dget pystr_eq_dec name out <> None <-> exists e, In e fs /\ name = fst (fst e) /\ In (name ++ str "new") (map fst res)) /\
    forall e combs, In e fs -> dget pystr_eq_dec (fst (fst e) ++ str "new") res = Some combs ->
      exists cs, dget pystr_eq_dec (fst (fst e)) out = Some cs /\ map fst cs = map fst combs /\
        forall comb blocks, In comb (generate_spin_combinations (snd e) false true) -> dget pystr_eq_dec comb combs = Some blocks ->
        exists bs, dget pystr_eq_dec comb cs = Some bs /\ map fst bs = map fst blocks /\
        forall key v, dget pystr_eq_dec key blocks = Some v ->
          exists x, dget pystr_eq_dec key bs = Some x /\ wf x /\ shp x = shp v /\ spin_antisymmetric key comb x /\
            forall idx, inb (shp v) idx -> aget r0 x idx = rmul (antisymmetriser_scale key comb) (fdiv (aget r0 v idx) (u_denominator sz eps key comb idx)).
Proof. exact u_corrections_ok. Qed.
Print Assumptions C39_corrections_unrestricted.

(** C39, restricted and general: the external amplitudes are the user's in the active block and zero elsewhere; the user's are not modified.
    Missing: frozen orbitals before active ones. *)
Theorem C39_external_partial : forall (F : fld) a s rspin fs (user : dict pystr (tval F)),
  valid_space s -> frozen_beyond s (chr_of "O") -> frozen_beyond s (chr_of "V") ->
  fermionic_cluster_ranks a rspin Wt = Ok fs -> NoDup (map (fun e => fst (fst e)) fs) ->
  (forall name key n w, In (name, key, n) fs -> dget pystr_eq_dec name user = Some w -> incl key (str "ov") /\ exists v, w = VArr v /\ shaped s (map upper key) v) ->
  exists ext, rg_external a s rspin user = Ok (ext, user) /\ map fst ext = map fst user /\
    (forall name key n v, In (name, key, n) fs -> dget pystr_eq_dec name user = Some (VArr v) ->
       exists y, dget pystr_eq_dec name ext = Some (VArr y) /\ shaped s key y /\
         forall idx, inb (shp y) idx -> aget r0 y idx = scattered (map (fun k => positions s (upper k)) key) v idx) /\
    (forall name, ~ In name (map (fun e => fst (fst e)) fs) -> dget pystr_eq_dec name ext = dget pystr_eq_dec name user).
Proof. exact rg_external_ok. Qed.
Print Assumptions C39_external_partial.

(** C39, restricted and general, on entries and strategies: any program in which no context object is entered inside itself, however often they are
    entered, sees the updates in force at each point, as if all contexts were entered for the first time. *)
Theorem C39_entries_partial : forall (F : fld) (E X : Type) (plain : update_fn E (dict pystr (tval F))) set_active (add : dict pystr (tval F) -> X -> result (dict pystr (tval F)))
    corrections get_eris complete a sp rspin (l : list (kind * dict pystr (tval F))) (p : cprog E (dict pystr (tval F))) fuel,
  no_self p -> (forall i, In i (entered p) -> i < length l) -> depth p < fuel ->
  exists s, crun plain set_active add corrections (rg_external a sp rspin) get_eris complete fuel p (start X l) =
      (fst (lexical set_active add corrections (rg_external a sp rspin) get_eris complete (nth_error l) p plain), s,
       snd (lexical set_active add corrections (rg_external a sp rspin) get_eris complete (nth_error l) p plain)) /\
    st_cur s = Plain.
Proof. exact rg_contexts. Qed.
Print Assumptions C39_entries_partial.

(** C39 is violated in the unrestricted class: entering the context modifies the user's amplitudes, and entering it again gives other external amplitudes. *)
Theorem C39_unrestricted_user_refuted : exists a sa sb (user user' : dict pystr (tval Qc_fld)) ext ext' user'',
  valid_space sa /\ valid_space sb /\ (forall s p, In s [sa; sb] -> p < length (sp_occupied s) -> frozen_at s p = false) /\
  (exists xs, user = [(str "t1", VSpin xs)] /\ (forall comb, In comb [str "aa"; str "bb"] -> exists x, dget pystr_eq_dec comb xs = Some x /\ u_shaped sa sb comb (str "OV") x)) /\
  u_external a sa sb user = Ok (ext, user') /\ user' <> user /\ u_external a sa sb user' = Ok (ext', user'') /\ ext' <> ext.
Proof.
  set (s := mkspace [true; true; false] [false; false; false] [false; true; true]).
  exists ext_ansatz, s, s, [(str "t1", VSpin [(str "aa", mkarr [1; 1] (qs [5]%Z)); (str "bb", mkarr [1; 1] (qs [5]%Z))])]. eexists _, _, _, _.
  split; [vm_compute; reflexivity|]. split; [vm_compute; reflexivity|]. split; [intros s' [|[|[|p]]] [<-|[<-|[]]] H; try reflexivity; cbn in H; lia|].
  split; [eexists; split; [reflexivity|]; intros comb [<-|[<-|[]]]; eexists; (split; [reflexivity|split; vm_compute; reflexivity])|].
  split; [vm_compute; reflexivity|]. split; [intros H; apply (f_equal (fun d => match d with [(_, VSpin ((_, x) :: _))] => shp x | _ => [] end)) in H; vm_compute in H; discriminate|].
  split; [vm_compute; reflexivity|].
  intros H. apply (f_equal (fun d => match d with [(_, VSpin ((_, x) :: _))] => map Qcanon.this (dat x) | _ => [] end)) in H. vm_compute in H. discriminate.
Qed.
Print Assumptions C39_unrestricted_user_refuted.

(** C39 is violated with a frozen occupied orbital below: the correction is added elsewhere. *)
Theorem C39_frozen_refuted : exists s (x v y : arr Qc_fld), valid_space s /\ shaped s (str "OV") v /\ shaped s (str "ov") x /\
  rg_add s [(str "t1", VArr x)] [(str "t1", [(str "OV", v)])] = Ok [(str "t1", VArr y)] /\
  exists idx, inb (shp x) idx /\ aget r0 y idx <> radd (aget r0 x idx) (contributions (map (positions s)) [(str "OV", v)] idx).
Proof.
  exists (mkspace [true; true; true; false] [true; false; false; false] [false; true; false; true]), (mkarr [2; 1] (qs [1; 2]%Z)), (mkarr [1; 1] (qs [7]%Z)). eexists.
  split; [vm_compute; reflexivity|]. split; [split; vm_compute; reflexivity|]. split; [split; vm_compute; reflexivity|]. split; [vm_compute; reflexivity|].
  exists [0; 0]. split; [vm_compute; auto|]. intros E. apply (f_equal Qcanon.this) in E. vm_compute in E. discriminate.
Qed.
Print Assumptions C39_frozen_refuted.

Example C39_case : exists out', rg_add ext_space ext_out ext_corr = Ok out' /\ dget pystr_eq_dec (str "t1") out' = Some (VArr (mkarr [2; 2] (qs [201; 302; 103; 4]%Z))).
Proof.
  destruct (@C39_adds_blocks_partial Qc_fld ext_space ext_out ext_corr ext_valid) as (out' & E & _); [repeat constructor; cbn; tauto|exact ext_corr_fits|].
  exists out'. split; [exact E|]. vm_compute in E. injection E as <-. vm_compute. reflexivity.
Qed.
Example C39_unrestricted_case : exists out', u_add ext_space ext_space_b ext_uout ext_ucorr = Ok out' /\
  dget pystr_eq_dec (str "t1") out' = Some (VSpin [(str "aa", mkarr [2; 2] (qs [201; 302; 103; 4]%Z)); (str "bb", mkarr [1; 2] (qs [14; 6]%Z))]).
Proof.
  destruct (@C39_adds_blocks_unrestricted_partial Qc_fld ext_space ext_space_b ext_uout ext_ucorr) as (out' & E & _); [apply ext_spaces; left; reflexivity|apply ext_spaces; right; left; reflexivity|repeat constructor; cbn; tauto|exact ext_ucorr_fits|].
  exists out'. split; [exact E|]. vm_compute in E. injection E as <-. vm_compute. reflexivity.
Qed.
Example C39_corrections_case : exists out x, rg_corrections ex_cc true ext_res = Ok out /\ dget pystr_eq_dec (str "t1") out = Some [(str "ov", x)] /\ shp x = [2; 1] /\ map Qcanon.this (dat x) = [(-1)%Q; (-2)%Q].
Proof.
  destruct (@C39_corrections Qc_fld ex_cc true ex_sz ex_eps ext_fs ext_res) as (out & E & _); [vm_compute; reflexivity|exact ext_nodup|exact ext_res_names|exact ext_res_fits|].
  exists out. eexists. split; [exact E|]. vm_compute in E. injection E as <-. split; [vm_compute; reflexivity|]. split; vm_compute; reflexivity.
Qed.
Example C39_external_case : exists ext, rg_external ext_ansatz ext_space true ext_user = Ok (ext, ext_user) /\ dget pystr_eq_dec (str "t1") ext = Some (VArr (mkarr [2; 2] (qs [0; 0; 77; 0]%Z))).
Proof.
  assert (FO : frozen_beyond ext_space (chr_of "O")) by (apply ext_frozen; vm_compute; try tauto; discriminate).
  assert (FV : frozen_beyond ext_space (chr_of "V")) by (apply ext_frozen; vm_compute; try tauto; discriminate).
  destruct (@C39_external_partial Qc_fld ext_ansatz ext_space true ext_fs ext_user ext_valid FO FV (ext_ranks true) ext_nodup ext_user_fits) as (ext & E & _).
  exists ext. split; [exact E|]. vm_compute in E. injection E as <-. vm_compute. reflexivity.
Qed.
Example C39_corrections_unrestricted_case : exists out x, u_corrections exu ext_ures = Ok out /\
  block_of (map (fun nc => (fst nc, VSpin (map (fun cb => (fst cb, snd (hd ([], x) (snd cb)))) (snd nc)))) out) (str "t2") (Some (str "abab")) = Some x /\
  map Qcanon.this (dat x) = [(-1)%Q; (-1)%Q; (-1)%Q; (-2)%Q].
Proof.
  destruct (@C39_corrections_unrestricted Qc_fld exu exu_sz exu_eps exu_fs ext_ures) as (out & E & _); [exact (proj1 exu_ranks)|repeat constructor; vm_compute; intuition discriminate|exact ext_ures_names|exact ext_ures_fits|].
  exists out. eexists. split; [exact E|]. vm_compute in E. injection E as <-. split; [vm_compute; reflexivity|]. vm_compute. reflexivity.
Qed.
