(** Theorems about tailoring and external corrections on namespaces. *)
From Coq Require Import Sorted String Permutation Field.
From Verif Require Import Base ListAux Alg ArrModel ArrProofs PermModel PackProofs TensorModel TensorSpec EinsumModel SpaceModel SpaceProofs AnsatzModel AnsatzSpec
  AnsatzProofs AnsatzRanks DampProofs KernelProofs VecModel VecSpec VecProofs VecThms CcModel CcSpec CcProofs CcThms CcUThms ExtModel ExtSpec ExtProofs.
Set Implicit Arguments.
Local Open Scope string_scope.
Local Open Scope list_scope.
Local Open Scope nat_scope.

(** * Meshes of orbital classes. *)
(** One class, with its spin's space, per axis. *)
Definition axis := (space * nat)%type.
Definition axis_ok (sc : axis) : Prop := valid_space (fst sc) /\ In (snd sc) class_letters /\ frozen_beyond (fst sc) (snd sc).
Lemma axes_masks (l : list axis) : Forall axis_ok l ->
  exists ms, mapM (fun sc => sector_mask (fst sc) (snd sc)) l = Ok ms /\ map nonzero ms = map (fun sc => positions (fst sc) (snd sc)) l.
Proof.
  induction 1 as [|[s c] l (V & I & FB) _ (ms & E & M)]; [exists []; split; reflexivity|]. destruct (sector_positions V I FB) as (m & Em & Nm).
  exists (m :: ms). cbn [mapM fst snd]. cbn [fst snd] in Em. rewrite Em, E. split; [reflexivity|]. cbn [map fst snd]. rewrite Nm, M. reflexivity.
Qed.
Lemma axes_mesh (l : list axis) : Forall axis_ok l ->
  mesh_ok (map (fun sc => length (orbitals (fst sc) (sector_letter (fst sc) (snd sc)))) l) (map (fun sc => positions (fst sc) (snd sc)) l).
Proof. induction 1 as [|[s c] l (V & I & FB) _ IH]; [constructor|]. cbn [map fst snd]. constructor; [|exact IH]. apply positions_ok; assumption. Qed.
Lemma positions_length s c : length (positions s c) = length (orbitals s c).
Proof. apply map_length. Qed.

Lemma mapM_fun {A B} (f g : A -> result B) l : (forall x, In x l -> f x = g x) -> mapM f l = mapM g l.
Proof. induction l as [|x l IH]; intros H; [reflexivity|]. cbn [mapM]. rewrite (H x (or_introl eq_refl)), IH by (intros; apply H; right; assumption). reflexivity. Qed.
Lemma mapM_map {A B C} (f : B -> result C) (g : A -> B) l : mapM f (map g l) = mapM (fun x => f (g x)) l.
Proof. induction l as [|x l IH]; [reflexivity|]. cbn [map mapM]. rewrite IH. reflexivity. Qed.

Lemma upper_ov k : In k (str "ov") -> In (upper k) class_letters /\ sector_letter (mkspace [] [] []) (upper k) = k.
Proof. cbn. intros [<-|[<-|[]]]; (split; [vm_compute; tauto|reflexivity]). Qed.

(** Axes of a block, and what array it addresses. *)
Definition ov_axes (s : nat -> space) (l : list (nat * nat)) : list axis := map (fun sk => (s (fst sk), upper (snd sk))) l.
Lemma ov_axes_ok s l : (forall sk, In sk l -> valid_space (s (fst sk)) /\ In (snd sk) (str "ov") /\ frozen_beyond (s (fst sk)) (upper (snd sk))) -> Forall axis_ok (ov_axes s l).
Proof. intros H. apply Forall_map, Forall_forall. intros [c k] Hin. destruct (H _ Hin) as (V & I & FB). split; [exact V|]. split; [|exact FB]. apply upper_ov, I. Qed.

Section Pin.
  Variable F : fld.
  Local Open Scope rng_scope.
  Local Notation amps := (dict pystr (tval F)).

  Lemma pin_ok s key (x v : arr F) : valid_space s -> frozen_beyond s (chr_of "O") -> frozen_beyond s (chr_of "V") -> incl key (str "ov") ->
    shaped s key x -> shaped s (map upper key) v ->
    exists y, pin s key x v = Ok y /\ replaced (map (fun k => positions s (upper k)) key) x v y.
  Proof.
    intros V FO FV Hk [Wx Sx] [Wv Sv]. unfold pin. set (l := map (fun k => (s, upper k)) key : list axis).
    assert (HA : Forall axis_ok l).
    { apply Forall_map, Forall_forall. intros k Hin. apply Hk in Hin. split; [exact V|]. split; [apply upper_ov, Hin|]. cbn [fst snd]. cbn in Hin. destruct Hin as [<-|[<-|[]]]; assumption. }
    destruct (axes_masks HA) as (ms & E & M). unfold l in E. rewrite mapM_map in E. cbn [fst snd] in E. rewrite E. cbn [bind].
    rewrite M. unfold l. rewrite map_map. cbn [fst snd]. apply put_ix_ok; [exact Wx|exact Wv| |].
    - pose proof (axes_mesh HA) as X. unfold l in X. rewrite !map_map in X. cbn [fst snd] in X. rewrite Sx. 
      replace (map (fun k => length (orbitals s k)) key) with (map (fun k => length (orbitals s (sector_letter s (upper k)))) key); [exact X|].
      apply map_ext_in. intros k Hin. apply Hk in Hin. destruct (upper_ov Hin) as [_ U]. unfold sector_letter in *. rewrite U. reflexivity.
    - rewrite Sv, !map_map. apply map_ext. intros k. symmetry. apply positions_length.
  Qed.

  Theorem set_active_ok a s rspin fs (out active : amps) : valid_space s -> frozen_beyond s (chr_of "O") -> frozen_beyond s (chr_of "V") ->
    fermionic_cluster_ranks a rspin Wt = Ok fs -> NoDup (map (fun e => fst (fst e)) fs) ->
    (forall name key n w, In (name, key, n) fs -> dget pystr_eq_dec name active = Some w ->
       incl key (str "ov") /\ exists v x, w = VArr v /\ dget pystr_eq_dec name out = Some (VArr x) /\ shaped s (map upper key) v /\ shaped s key x) ->
    exists out', rg_set_active a s rspin out active = Ok out' /\ map fst out' = map fst out /\
      (forall name key n v x, In (name, key, n) fs -> dget pystr_eq_dec name active = Some (VArr v) -> dget pystr_eq_dec name out = Some (VArr x) ->
         exists y, dget pystr_eq_dec name out' = Some (VArr y) /\ replaced (map (fun k => positions s (upper k)) key) x v y) /\
      (forall name, (forall key n, In (name, key, n) fs -> dget pystr_eq_dec name active = None) -> dget pystr_eq_dec name out' = dget pystr_eq_dec name out).
  Proof.
    intros V FO FV Ef ND H. unfold rg_set_active. rewrite Ef. cbn [bind].
    destruct (@fold_opt entry (tval F) (fun e => fst (fst e)) (fun d e => let '(name, key, _) := e in
             optionally name active d (fun w =>
               bind (as_arr w) (fun v => bind (lookup name d) (fun u => bind (as_arr u) (fun x => bind (pin s key x v) (fun y => Ok (dset pystr_eq_dec name (VArr y) d)))))))
      (fun e o => let '(name, key, _) := e in match dget pystr_eq_dec name active with
                  | None => o = None
                  | Some w => exists v x y, w = VArr v /\ dget pystr_eq_dec name out = Some (VArr x) /\ replaced (map (fun k => positions s (upper k)) key) x v y /\ o = Some (VArr y)
                  end) fs out ND) as (out' & E & K & O1 & O2).
    { intros [[name key] n] Hin. cbn [fst snd]. destruct (dget pystr_eq_dec name active) as [w|] eqn:Ew.
      - destruct (H _ _ _ _ Hin Ew) as (Hk & v & x & -> & Ex & Sv & Sx). destruct (@pin_ok s key x v V FO FV Hk Sx Sv) as (y & Ey & Ry).
        exists (Some (VArr y)). split; [exists v, x, y; auto|]. split; [congruence|]. intros d' Ed'. unfold optionally. rewrite Ew. cbn [as_arr bind].
        unfold lookup. rewrite Ed', Ex. cbn [as_arr bind]. rewrite Ey. reflexivity.
      - exists None. split; [reflexivity|]. split; [congruence|]. intros d' _. unfold optionally. rewrite Ew. reflexivity. }
    exists out'. split; [exact E|]. split; [exact K|]. split.
    - intros name key n v x Hin Ev Ex. destruct (O2 _ Hin) as (o & P & Eo). cbn [fst snd] in Eo. rewrite Ev in P. destruct P as (v' & x' & y & [= <-] & Ex' & R & ->).
      rewrite Ex in Ex'. injection Ex' as <-. exists y. split; [exact Eo|exact R].
    - intros name Hn. destruct (in_dec pystr_eq_dec name (map (fun e => fst (fst e)) fs)) as [I|N]; [|apply O1, N].
      apply in_map_iff in I. destruct I as ([[nm key] n] & <- & Hin). cbn [fst snd] in *. destruct (O2 _ Hin) as (o & P & Eo). cbn [fst snd] in Eo. cbn in P.
      rewrite (Hn _ _ Hin) in P. subst o. exact Eo.
  Qed.

  (** Unrestricted. *)
  Definition spins_known (comb : pystr) : Prop := incl comb (str "ab").
  Lemma spin_space_ok sa sb c : In c (str "ab") -> spin_space sa sb c = Ok (spin_space_of sa sb c).
  Proof. cbn. intros [<-|[<-|[]]]; reflexivity. Qed.
  Lemma u_pin_ok sa sb comb key (x v : arr F) :
    (forall sk, In sk (combine comb key) -> In (fst sk) (str "ab") /\ In (snd sk) (str "ov") /\ valid_space (spin_space_of sa sb (fst sk)) /\
       frozen_beyond (spin_space_of sa sb (fst sk)) (upper (snd sk))) ->
    u_shaped sa sb comb key x -> u_shaped sa sb comb (map upper key) v ->
    exists y, u_pin sa sb key comb x v = Ok y /\ replaced (u_positions sa sb comb (map upper key)) x v y.
  Proof.
    intros H [Wx Sx] [Wv Sv]. unfold u_pin.
    assert (CU : forall cb : pystr, combine cb (map upper key) = map (fun sk => (fst sk, upper (snd sk))) (combine cb key)).
    { clear. induction key as [|k key IH]; intros [|c cb]; try reflexivity. cbn [map combine fst snd]. rewrite IH. reflexivity. }
    set (l := map (fun sk => (spin_space_of sa sb (fst sk), upper (snd sk))) (combine comb key) : list axis).
    assert (HA : Forall axis_ok l).
    { apply Forall_map, Forall_forall. intros sk Hin. destruct (H _ Hin) as (_ & I & V & FB). split; [exact V|]. split; [apply upper_ov, I|exact FB]. }
    destruct (axes_masks HA) as (ms & E & M).
    rewrite (mapM_fun _ (fun sk => sector_mask (spin_space_of sa sb (fst sk)) (upper (snd sk)))).
    2:{ intros sk Hin. rewrite spin_space_ok by (apply H, Hin). reflexivity. }
    unfold l in E. rewrite mapM_map in E. cbn [fst snd] in E. rewrite E. cbn [bind]. rewrite M. unfold l, u_positions. rewrite CU, !map_map. cbn [fst snd].
    apply put_ix_ok; [exact Wx|exact Wv| |].
    - pose proof (axes_mesh HA) as X. unfold l in X. rewrite !map_map in X. cbn [fst snd] in X. rewrite Sx.
      erewrite map_ext_in; [exact X|]. intros sk Hin. cbn. destruct (H _ Hin) as (_ & I & _). destruct (upper_ov I) as [_ U]. unfold sector_letter in *. rewrite U. reflexivity.
    - rewrite Sv, CU, !map_map. apply map_ext. intros k. symmetry. apply positions_length.
  Qed.

  Theorem u_set_active_ok a sa sb fs (out active : amps) :
    fermionic_cluster_ranks a false Wt = Ok fs -> NoDup (map (fun e => fst (fst e)) fs) ->
    (forall s, In s [sa; sb] -> valid_space s /\ frozen_beyond s (chr_of "O") /\ frozen_beyond s (chr_of "V")) ->
    (forall name key n w, In (name, key, n) fs -> dget pystr_eq_dec name active = Some w ->
       incl key (str "ov") /\ exists vs xs, w = VSpin vs /\ dget pystr_eq_dec name out = Some (VSpin xs) /\ NoDup (map fst xs) /\
         forall comb x, In (comb, x) xs -> spins_known comb /\ u_shaped sa sb comb key x /\
           exists v, dget pystr_eq_dec comb vs = Some v /\ u_shaped sa sb comb (map upper key) v) ->
    exists out', u_set_active a sa sb out active = Ok out' /\ map fst out' = map fst out /\
      (forall name key n vs xs, In (name, key, n) fs -> dget pystr_eq_dec name active = Some (VSpin vs) -> dget pystr_eq_dec name out = Some (VSpin xs) ->
         exists ys, dget pystr_eq_dec name out' = Some (VSpin ys) /\ map fst ys = map fst xs /\
           forall comb x v, dget pystr_eq_dec comb xs = Some x -> dget pystr_eq_dec comb vs = Some v ->
             exists y, dget pystr_eq_dec comb ys = Some y /\ replaced (u_positions sa sb comb (map upper key)) x v y) /\
      (forall name, (forall key n, In (name, key, n) fs -> dget pystr_eq_dec name active = None) -> dget pystr_eq_dec name out' = dget pystr_eq_dec name out).
  Proof.
    intros Ef ND HS H. unfold u_set_active. rewrite Ef. cbn [bind].
    set (spec := fun (key : pystr) (xs vs ys : dict pystr (arr F)) => map fst ys = map fst xs /\ forall comb x v, dget pystr_eq_dec comb xs = Some x -> dget pystr_eq_dec comb vs = Some v ->
             exists y, dget pystr_eq_dec comb ys = Some y /\ replaced (u_positions sa sb comb (map upper key)) x v y).
    destruct (@fold_opt entry (tval F) (fun e => fst (fst e)) (fun d e => let '(name, key, _) := e in
             optionally name active d (fun w =>
               bind (lookup name d) (fun u => bind (as_spin u) (fun xs =>
               bind (mapM (fun kx => bind (as_spin w) (fun vs => bind (lookup (fst kx) vs) (fun v => bind (u_pin sa sb key (fst kx) (snd kx) v) (fun y => Ok (fst kx, y))))) xs) (fun ys =>
               Ok (dset pystr_eq_dec name (VSpin ys) d))))))
      (fun e o => let '(name, key, _) := e in match dget pystr_eq_dec name active with
                  | None => o = None
                  | Some w => exists vs xs ys, w = VSpin vs /\ dget pystr_eq_dec name out = Some (VSpin xs) /\ spec key xs vs ys /\ o = Some (VSpin ys)
                  end) fs out ND) as (out' & E & K & O1 & O2).
    { intros [[name key] n] Hin. cbn [fst snd]. destruct (dget pystr_eq_dec name active) as [w|] eqn:Ew.
      - destruct (H _ _ _ _ Hin Ew) as (Hk & vs & xs & -> & Ex & NX & HX).
        assert (G : exists ys, mapM (fun kx => bind (as_spin (VSpin vs)) (fun vs => bind (lookup (fst kx) vs) (fun v => bind (u_pin sa sb key (fst kx) (snd kx) v) (fun y => Ok (fst kx, y))))) xs = Ok ys /\ spec key xs vs ys).
        { clear - NX HX HS Hk. induction xs as [|[comb x] xs IH]; [exists []; split; [reflexivity|]; split; [reflexivity|]; intros ? ? ? [=]|].
          inversion NX as [|? ? N1 N2]; subst. destruct IH as (ys & Ey & K & R); [exact N2|intros c0 x0 Hi; apply HX; right; exact Hi|].
          destruct (HX comb x (or_introl eq_refl)) as (SK & Sx & v & Ev & Sv).
          destruct (@u_pin_ok sa sb comb key x v) as (y & Epin & Rp); [|exact Sx|exact Sv|].
          { intros [c k] Hi. cbn [fst snd]. pose proof (in_combine_l _ _ _ _ Hi) as Hc. pose proof (in_combine_r _ _ _ _ Hi) as Hkk. apply SK in Hc. apply Hk in Hkk.
            split; [exact Hc|]. split; [exact Hkk|]. assert (HI : In (spin_space_of sa sb c) [sa; sb]) by (unfold spin_space_of; destruct (c =? _); cbn; tauto).
            destruct (HS _ HI) as (V & FO & FV). split; [exact V|]. cbn in Hkk. destruct Hkk as [<-|[<-|[]]]; assumption. }
          exists ((comb, y) :: ys). split.
          - cbn [mapM as_spin bind fst snd]. unfold lookup at 1. rewrite Ev. cbn [bind]. rewrite Epin. cbn [bind]. cbn [as_spin bind] in Ey. rewrite Ey. reflexivity.
          - split; [cbn [map fst]; rewrite K; reflexivity|]. intros c0 x0 v0. cbn [dget]. destruct (pystr_eq_dec c0 comb) as [->|].
            + intros [= <-] Ev0. rewrite Ev in Ev0. injection Ev0 as <-. exists y. split; [reflexivity|exact Rp].
            + apply R. }
        destruct G as (ys & Ey & Sp). exists (Some (VSpin ys)). split; [exists vs, xs, ys; auto|]. split; [congruence|].
        intros d' Ed'. unfold optionally. rewrite Ew. unfold lookup at 1. rewrite Ed', Ex. cbn [as_spin bind]. cbn [as_spin bind] in Ey. rewrite Ey. reflexivity.
      - exists None. split; [reflexivity|]. split; [congruence|]. intros d' _. unfold optionally. rewrite Ew. reflexivity. }
    exists out'. split; [exact E|]. split; [exact K|]. split.
    - intros name key n vs xs Hin Ev Ex. destruct (O2 _ Hin) as (o & P & Eo). cbn [fst snd] in Eo. rewrite Ev in P. destruct P as (vs' & xs' & ys & [= <-] & Ex' & R & ->).
      rewrite Ex in Ex'. injection Ex' as <-. exists ys. split; [exact Eo|exact R].
    - intros name Hn. destruct (in_dec pystr_eq_dec name (map (fun e => fst (fst e)) fs)) as [I|N]; [|apply O1, N].
      apply in_map_iff in I. destruct I as ([[nm key] n] & <- & Hin). cbn [fst snd] in *. destruct (O2 _ Hin) as (o & P & Eo). cbn [fst snd] in Eo. cbn in P.
      rewrite (Hn _ _ Hin) in P. subst o. exact Eo.
  Qed.
End Pin.
