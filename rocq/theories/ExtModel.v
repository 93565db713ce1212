(** Model of the context managers in ebcc/ext/tcc.py (tailoring) and ebcc/ext/eccc.py (external corrections),
    with the array helpers of ebcc/backend/__init__.py.  Arrays are values; where the code writes into an array it has just
    received, the model returns the new array.  Logging and the options object of the tailor (empty) are not modelled. *)
From Coq Require Import String.
From Verif Require Import Base Alg ArrModel PermModel TensorModel EinsumModel SpaceModel AnsatzModel VecModel CcModel.
Set Implicit Arguments.
Local Open Scope nat_scope.
Local Open Scope list_scope.
Local Open Scope py_scope.

(** tcc.py:36-38, eccc.py:45-47 [_mask]. *)
Definition sector_mask (s : space) (c : nat) : result mask := if memb c (str "ioO") then omask s c else vmask s c.
(** [np.ix_] of boolean masks: the positions of True along every axis. *)
Definition nonzero (m : mask) : list nat := map snd (filter fst (combine m (seq 0 (length m)))).
(** [str.upper] on ASCII letters. *)
Definition upper (c : nat) : nat := if is_lower c then c - 32 else c.

Definition within (s idx : list nat) : bool := (length idx =? length s) && forallb (fun p => fst p <? snd p) (combine idx s).

(** backend/__init__.py:115-168 [_put] with a tuple of open-mesh indices (numpy): [np.ravel_multi_index] broadcasts them and
    raises ValueError on an index out of range, [np.put] writes. *)
Definition put_ix {A} (d : A) (a : arr A) (ix : list (list nat)) (v : arr A) : result (arr A) :=
  if negb (length ix =? length (shp a)) then Err ValueError else
  if forallb (within (shp a)) (product ix) then Ok (np_put d a (map (ravel (shp a)) (product ix)) (dat v)) else Err ValueError.
(** [a[np.ix_(...)]]; fewer indices than axes is not modelled. *)
Definition get_ix {A} (d : A) (a : arr A) (ix : list (list nat)) : result (arr A) :=
  if negb (length ix =? length (shp a)) then Err IndexError else
  if forallb (fun p => forallb (fun i => i <? snd p) (fst p)) (combine ix (shp a))
  then Ok (mkarr (map (@length nat) ix) (map (aget d a) (product ix))) else Err IndexError.

(** [if name not in d: continue] *)
Definition optionally {A B} (name : pystr) (d : dict pystr A) (acc : B) (f : A -> result B) : result B :=
  match dget pystr_eq_dec name d with None => Ok acc | Some x => f x end.

Section Ext.
  Variable F : fld.
  Local Notation amps := (dict pystr (tval F)).
  (** backend/__init__.py:171-187 [_inflate] *)
  Definition inflate (s : list nat) (ix : list (list nat)) (v : arr F) : result (arr F) := put_ix r0 (zeros s) ix v.

  (** tcc.py:169-176 and 250-257, TailorREBCC and TailorGEBCC [_set_active_space]: one amplitude... *)
  Definition pin (sp : space) (key : pystr) (x v : arr F) : result (arr F) :=
    ms <- mapM (fun k => sector_mask sp (upper k)) key ;; put_ix r0 x (map nonzero ms) v.
  Definition rg_set_active (a : ansatz) (sp : space) (rspin : bool) (out active : amps) : result amps :=
    fs <- fermionic_cluster_ranks a rspin Wt ;;
    foldM (fun d e => let '(name, key, _) := e in
             optionally name active d (fun w =>
               v <- as_arr w ;; u <- lookup name d ;; x <- as_arr u ;; y <- pin sp key x v ;; Ok (dset pystr_eq_dec name (VArr y) d))) fs out.
  (** tcc.py:207-217, TailorUEBCC: the spin blocks are those of the updated amplitudes. *)
  Definition u_pin (sa sb : space) (key comb : pystr) (x v : arr F) : result (arr F) :=
    ms <- mapM (fun sk => sp <- spin_space sa sb (fst sk) ;; sector_mask sp (upper (snd sk))) (combine comb key) ;;
    put_ix r0 x (map nonzero ms) v.
  Definition u_set_active (a : ansatz) (sa sb : space) (out active : amps) : result amps :=
    fs <- fermionic_cluster_ranks a false Wt ;;
    foldM (fun d e => let '(name, key, _) := e in
             optionally name active d (fun w =>
               u <- lookup name d ;; xs <- as_spin u ;;
               ys <- mapM (fun kx => vs <- as_spin w ;; v <- lookup (fst kx) vs ;; y <- u_pin sa sb key (fst kx) (snd kx) v ;; Ok (fst kx, y)) xs ;;
               Ok (dset pystr_eq_dec name (VSpin ys) d))) fs out.

  (** Corrections: for every amplitude, and in the unrestricted class every spin string, the blocks by their index letters. *)
  Definition exts := dict pystr (dict pystr (arr F)).
  Definition uexts := dict pystr (dict pystr (dict pystr (arr F))).
  (** eccc.py:255-265, 504-514, ExternalCorrectionREBCC and ...GEBCC [_add_to_amps]: one block... *)
  Definition add_block (ms : result (list mask)) (x v : arr F) : result (arr F) :=
    ms <- ms ;; let ix := map nonzero ms in
    o <- get_ix r0 x ix ;; s <- plus_arr o v ;; put_ix r0 x ix s.
  Definition rg_add (sp : space) (out : amps) (e : exts) : result amps :=
    foldM (fun d ne => let '(name, blocks) := ne in
             optionally name d d (fun u =>
               x <- as_arr u ;;
               y <- foldM (fun x kv => add_block (mapM (sector_mask sp) (fst kv)) x (snd kv)) blocks x ;;
               Ok (dset pystr_eq_dec name (VArr y) d))) e out.
  (** eccc.py:361-372, ExternalCorrectionUEBCC *)
  Definition u_masks (sa sb : space) (comb key : pystr) : result (list mask) :=
    mapM (fun sk => sp <- spin_space sa sb (fst sk) ;; sector_mask sp (snd sk)) (combine comb key).
  Definition u_add (sa sb : space) (out : amps) (e : uexts) : result amps :=
    foldM (fun d ne => let '(name, combs) := ne in
             optionally name d d (fun u =>
               xs <- as_spin u ;;
               ys <- foldM (fun xs cb => let '(comb, blocks) := cb in
                       foldM (fun xs kv => x <- lookup comb xs ;;
                                y <- add_block (u_masks sa sb comb (fst kv)) x (snd kv) ;; Ok (dset pystr_eq_dec comb y xs)) blocks xs) combs xs ;;
               Ok (dset pystr_eq_dec name (VSpin ys) d))) e out.

  (** eccc.py:284-297, 533-543 [_update_external_corrections]: what is done with the residuals [res] of the generated code. *)
  Definition rg_corrections (c : cc F) (rspin : bool) (res : exts) : result exts :=
    fs <- fermionic_cluster_ranks (cc_ansatz c) rspin Wt ;;
    foldM (fun d e => let '(name, _, _) := e in
             optionally name d d (fun blocks =>
               bs <- mapM (fun kv => den <- energy_sum c (fst kv) [] ;; y <- div_arr (snd kv) den ;; Ok (fst kv, y)) blocks ;;
               Ok (dset pystr_eq_dec name bs d))) fs (strip_new res).
  (** eccc.py:391-410 *)
  Definition u_corrections (c : ucc F) (res : uexts) : result uexts :=
    fs <- fermionic_cluster_ranks (u_ansatz c) false Wt ;;
    foldM (fun d e => let '(name, _, n) := e in
             optionally name d d (fun combs =>
               cs <- foldM (fun combs comb =>
                       blocks <- lookup comb combs ;;
                       bs <- mapM (fun kv => sc <- combine_subscripts [fst kv; comb] [] ;; den <- u_energy_sum c (fst kv) comb [] ;; y <- div_arr (snd kv) den ;;
                                     z <- symmetrise F (Some half_pow) (fst sc) y (Some (repeat TensorModel.ch_minus (2 * n))) ;; Ok (fst kv, z)) blocks ;;
                       Ok (dset pystr_eq_dec comb bs combs)) (generate_spin_combinations n false true) combs ;;
               Ok (dset pystr_eq_dec name cs d))) fs (strip_new res).

  (** eccc.py:299-326, 545-572 [_get_external_amplitudes]: the pair of the namespace returned and the one held by the user.
      In the restricted and general classes entries of a copy are replaced, so the user's is as before... *)
  Definition inflate_to (shape : result (list nat)) (ms : result (list mask)) (v : arr F) : result (arr F) :=
    s <- shape ;; m <- ms ;; inflate s (map nonzero m) v.
  Definition rg_external (a : ansatz) (sp : space) (rspin : bool) (user : amps) : result (amps * amps) :=
    fs <- fermionic_cluster_ranks a rspin Wt ;;
    ext <- foldM (fun d e => let '(name, key, _) := e in
             optionally name d d (fun w =>
               v <- as_arr w ;; y <- inflate_to (key_shape sp key) (mapM (fun k => sector_mask sp (upper k)) key) v ;;
               Ok (dset pystr_eq_dec name (VArr y) d))) fs user ;;
    Ok (ext, user).
  (** ... in the unrestricted class the spin namespaces inside the copy are the user's own, and their arrays are replaced
      (eccc.py:424-441; [Namespace.copy] is shallow, misc.py:135-137). *)
  Definition u_external (a : ansatz) (sa sb : space) (user : amps) : result (amps * amps) :=
    fs <- fermionic_cluster_ranks a false Wt ;;
    ext <- foldM (fun d e => let '(name, key, n) := e in
             optionally name d d (fun w =>
               xs <- as_spin w ;;
               ys <- foldM (fun xs comb => v <- lookup comb xs ;;
                       y <- inflate_to (spin_shape sa sb key comb) (u_masks sa sb comb (map upper key)) v ;;
                       Ok (dset pystr_eq_dec comb y xs)) (generate_spin_combinations n false true) xs ;;
               Ok (dset pystr_eq_dec name (VSpin ys) d))) fs user ;;
    Ok (ext, ext).
End Ext.
Arguments inflate {F}. Arguments pin {F}. Arguments rg_set_active {F}. Arguments u_pin {F}. Arguments u_set_active {F}. Arguments add_block {F}.
Arguments rg_add {F}. Arguments u_add {F}. Arguments rg_corrections {F}. Arguments u_corrections {F}. Arguments inflate_to {F}.
Arguments rg_external {F}. Arguments u_external {F}.

(** * The contexts.  [E] are the integrals, [N] the namespaces of amplitudes, [X] the corrections. *)
Section Contexts.
  Variables (E N X : Type).
  (** eccc.py:42; any other string behaves like "fixed". *)
  Inductive strategy := Fixed | Update | Ignore.
  (** The arguments of [update_amps] and its result. *)
  Definition update_fn := option E -> option N -> result N.
  (** The method of the class, and what the context managers do with amplitudes. *)
  Variable plain : update_fn.
  Variable set_active : N -> N -> result N.
  Variable add : N -> X -> result N.
  Inductive part := External | Mixed.
  Variable corrections : part -> option E -> N -> result X.
  Variable external : N -> result (N * N).
  Variable get_eris : result E.
  (** eccc.py:138-141: amplitudes not present are taken from the external ones. *)
  Variable complete : N -> N -> N.

  Inductive kind := Tailor | Correct (s : strategy).
  (** Functions [cc.update_amps] can be bound to: the method, or the closure made by entering context object [i]; the
      corrections computed on entry are captured ([mix] is unbound under "ignore"). *)
  Inductive fn := Plain | Wrap (i : nat) (ext mix : option X).
  Record ctx := mkctx { c_kind : kind; c_user : N; c_old : option fn }.
  Record cstate := mkst { st_cur : fn; st_ctxs : list ctx }.
  Definition set_ctx (i : nat) (c : ctx) (s : cstate) (f : fn) : cstate :=
    mkst f (firstn i (st_ctxs s) ++ c :: skipn (S i) (st_ctxs s)).

  (** tcc.py:108-121, eccc.py:121-156: calling [cc.update_amps]; [fuel] is the recursion limit (RecursionError is a
      RuntimeError).  The captured [mix] is reassigned under "update" before every use, so it need not be stored. *)
  Fixpoint call (fuel : nat) (cs : list ctx) (f : fn) (e : option E) (a : option N) : result N :=
    match fuel with
    | 0 => Err RuntimeError
    | S fuel =>
      match f with
      | Plain => plain e a
      | Wrap i ext mix =>
          match nth_error cs i with
          | None => Err NameError
          | Some c =>
              let inner := match c_old c with None => Err AssertionError | Some g => call fuel cs g e a end in
              match c_kind c, ext with
              | Tailor, _ => x <- inner ;; set_active x (c_user c)
              | Correct s, Some ext =>
                  mix <- (match s, a with
                          | Update, None => Err ValueError
                          | Update, Some t => m <- corrections Mixed e (complete t (c_user c)) ;; Ok (Some m)
                          | _, _ => Ok mix
                          end) ;;
                  x <- inner ;; y <- add x ext ;;
                  match s, mix with
                  | Ignore, _ => Ok y
                  | _, Some m => add y m
                  | _, None => Err NameError
                  end
              | Correct _, None => Err NameError
              end
          end
      end
    end.

  (** tcc.py:103-124, eccc.py:107-163 [__enter__] of context object [i]; an exception leaves [cc.update_amps] alone. *)
  Definition enter (i : nat) (s : cstate) : result cstate :=
    match nth_error (st_ctxs s) i with
    | None => Err NameError
    | Some c =>
        match c_kind c with
        | Tailor => Ok (set_ctx i (mkctx Tailor (c_user c) (Some (st_cur s))) s (Wrap i None None))
        | Correct st =>
            e <- get_eris ;; xu <- external (c_user c) ;;
            ext <- corrections External (Some e) (fst xu) ;;
            mix <- (match st with Ignore => Ok None | _ => m <- corrections Mixed (Some e) (fst xu) ;; Ok (Some m) end) ;;
            Ok (set_ctx i (mkctx (c_kind c) (snd xu) (Some (st_cur s))) s (Wrap i (Some ext) mix))
        end
    end.
  (** tcc.py:126-131, eccc.py:165-170 [__exit__] *)
  Definition leave (i : nat) (s : cstate) : result cstate :=
    match nth_error (st_ctxs s) i with
    | None => Err NameError
    | Some c => match c_old c with
                | None => Err AssertionError
                | Some f => Ok (set_ctx i (mkctx (c_kind c) (c_user c) None) s f)
                end
    end.

  (** Programs using the calculation: updates, [with] statements, exceptions and [try]. *)
  Inductive cprog :=
  | CDone
  | CCall (e : option E) (a : option N) (rest : cprog)
  | CWith (i : nat) (body rest : cprog)
  | CRaise
  | CTry (body rest : cprog).
  (** The results of the updates, the final state, and whether the program ended normally. *)
  Fixpoint crun (fuel : nat) (p : cprog) (s : cstate) : list (result N) * cstate * bool :=
    match p with
    | CDone => ([], s, true)
    | CRaise => ([], s, false)
    | CCall e a rest =>
        match call fuel (st_ctxs s) (st_cur s) e a with
        | Ok x => let '(o, s', b) := crun fuel rest s in (Ok x :: o, s', b)
        | Err er => ([Err er], s, false)
        end
    | CWith i body rest =>
        match enter i s with
        | Err _ => ([], s, false)
        | Ok s1 =>
            let '(o, s2, b) := crun fuel body s1 in
            match leave i s2 with
            | Err _ => (o, s2, false)
            | Ok s3 => if b then let '(o', s4, b') := crun fuel rest s3 in (o ++ o', s4, b') else (o, s3, false)
            end
        end
    | CTry body rest =>
        let '(o, s1, _) := crun fuel body s in
        let '(o', s2, b) := crun fuel rest s1 in (o ++ o', s2, b)
    end.
End Contexts.
Arguments CDone {E N}. Arguments CRaise {E N}. Arguments Plain {X}. Arguments Wrap {X}.
