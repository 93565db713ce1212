(** Lemmas about the coherent-state shift. *)
From Coq Require Import String Permutation Field.
From Verif Require Import Base ListAux Alg ArrModel ArrProofs PermModel TensorModel TensorSpec EinsumModel EinsumSpec EinAux SpaceModel AnsatzModel AnsatzRanks VecModel VecSpec
  CcModel CcSpec CcProofs CcThms CcRdm.
Set Implicit Arguments.
Local Open Scope string_scope.
Local Open Scope list_scope.
Local Open Scope nat_scope.

Section Shift.
  Variable F : fld.
  Local Open Scope rng_scope.
  Local Open Scope py_scope.
  Add Field Ffield6 : (fth F).

  Lemma inb1 n idx : inb [n] idx <-> exists i, idx = [i] /\ (i < n)%nat.
  Proof.
    rewrite inb_iff. split.
    - intros [L H]. destruct idx as [|i [|]]; try discriminate. exists i. split; [reflexivity|]. exact (H 0%nat ltac:(cbn; lia)).
    - intros (i & -> & Hi). split; [reflexivity|]. intros [|k] Hk; cbn in *; lia.
  Qed.
  Lemma vec_zip (f : F -> F -> F) (a b : arr F) n : vec_of n a -> vec_of n b -> exists c, zip_arr f a b = Ok c /\ vec_of n c /\ forall i, (i < n)%nat -> aget 0 c [i] = f (aget 0 a [i]) (aget 0 b [i]).
  Proof.
    intros [Wa Sa] [Wb Sb]. destruct (@zip_ok F f a b Wa Wb ltac:(congruence)) as (c & E & W & S & G). exists c. split; [exact E|]. split; [split; congruence|].
    intros i Hi. apply G. rewrite Sa. apply inb1. exists i. tauto.
  Qed.
  Lemma vec_ext (a b : arr F) n : vec_of n a -> vec_of n b -> (forall i, (i < n)%nat -> aget 0 a [i] = aget 0 b [i]) -> a = b.
  Proof. intros [Wa Sa] [Wb Sb] H. apply (@arr_ext F 0); try assumption; [congruence|]. intros idx Hi. rewrite Sa in Hi. apply inb1 in Hi. destruct Hi as (i & -> & Hi). apply H, Hi. Qed.
  Lemma zeros_vec n : vec_of n (@zeros F [n]).
  Proof. split; [apply full_wf|reflexivity]. Qed.
  Lemma zeros_get n i : (i < n)%nat -> aget 0 (@zeros F [n]) [i] = 0.
  Proof. intros H. unfold zeros. apply aget_full. Qed.

  (** ** The drive. *)
  Lemma trace_ok (boo : arr F) b n : wf boo -> shp boo = [b; n; n] -> exists t, trace_boo boo = Ok t /\ vec_of b t /\
    forall I, (I < b)%nat -> aget 0 t [I] = rsum (map (fun p => aget 0 boo [I; p; p]) (seq 0 n)).
  Proof.
    intros W S. unfold trace_boo.
    destruct (@np_value F (env_of (str "Ip") [b; n]) [str "Ipp"] (str "I") (str "p") [boo]) as (r & E & Wr & Sr & G).
    - vm_compute. reflexivity.
    - constructor; [|constructor]. split; [exact W|]. rewrite S. vm_compute. reflexivity.
    - exists r. change (map (env_of (str "Ip") [b; n]) (str "I")) with [b] in Sr, G. split; [exact E|]. split; [split; assumption|].
      intros I HI. rewrite G by (apply inb1; exists I; tauto).
      change (map (env_of (str "Ip") [b; n]) (str "p")) with [n]. rewrite rsum_all_cons. apply rsum_map_ext. intros p _. rewrite rsum_all_nil.
      unfold product_term, rprod. cbn [combine map fst snd fold_right app].
      change (map (env_of (str "I" ++ str "p") [I; p]) (str "Ipp")) with [I; p; p]. ring.
  Qed.

  Lemma drive_ok (c : cc F) rspin g boo b n : cc_g c = Some g -> g (str "boo") = Ok boo -> wf boo -> shp boo = [b; n; n] ->
    exists d, drive c rspin = Ok d /\ vec_of b d /\
      forall I, (I < b)%nat -> aget 0 d [I] = (if rspin then @two F else 1) * rsum (map (fun p => aget 0 boo [I; p; p]) (seq 0 n)).
  Proof.
    intros Eg Eb W S. destruct (@trace_ok boo b n W S) as (t & Et & [Wt' St] & Gt). unfold drive. rewrite Eg, Eb. cbn [bind]. rewrite Et. cbn [bind].
    eexists. split; [reflexivity|]. destruct rspin.
    - split; [split; [apply scale_wf, Wt'|exact St]|]. intros I HI. rewrite scale_get by (try exact Wt'; rewrite St; apply inb1; exists I; tauto). rewrite Gt by assumption. ring.
    - split; [split; assumption|]. intros I HI. rewrite Gt by assumption. ring.
  Qed.
  Lemma u_drive_ok (c : ucc F) g x y b n m : u_g c = Some g -> g (str "aa") (str "boo") = Ok x -> g (str "bb") (str "boo") = Ok y ->
    wf x -> shp x = [b; n; n] -> wf y -> shp y = [b; m; m] ->
    exists d, u_drive c = Ok d /\ vec_of b d /\
      forall I, (I < b)%nat -> aget 0 d [I] = rsum (map (fun p => aget 0 x [I; p; p]) (seq 0 n)) + rsum (map (fun p => aget 0 y [I; p; p]) (seq 0 m)).
  Proof.
    intros Eg Ex Ey Wx Sx Wy Sy. destruct (@trace_ok x b n Wx Sx) as (s & Es & Vs & Gs). destruct (@trace_ok y b m Wy Sy) as (t & Et & Vt & Gt).
    destruct (@vec_zip radd s t b Vs Vt) as (d & Ed & Vd & Gd). unfold u_drive. rewrite Eg, Ex, Ey. cbn [bind]. rewrite Es, Et. cbn [bind]. exists d. split; [exact Ed|]. split; [exact Vd|].
    intros I HI. rewrite Gd, Gs, Gt by assumption. reflexivity.
  Qed.

  Variables (n : nat) (w : arr F) (bare : option (arr F)).
  Hypothesis Hw : vec_of n w.
  Hypothesis Hb : forall b, bare = Some b -> vec_of n b.

  Lemma shifted (drive : result (arr F)) d : drive = Ok d -> vec_of n d -> (forall i, (i < n)%nat -> aget 0 w [i] <> 0) ->
    exists x G e, xi_of true (Some w) bare drive = Ok x /\ vec_of n x /\ (forall i, (i < n)%nat -> aget 0 w [i] * aget 0 x [i] = aget 0 d [i] + bare_at bare i) /\
      mean_field_G true (Some w) bare drive = Ok G /\ G = zeros [n] /\
      const true (Some w) (xi_of true (Some w) bare drive) = Ok e /\ e = rsum (map (fun i => aget 0 w [i] * (aget 0 x [i] * aget 0 x [i])) (seq 0 n)).
  Proof.
    intros Ed Vd HN. destruct (@vec_zip fdiv d w n Vd Hw) as (q & Eq & Vq & Gq).
    assert (X : exists x, xi_of true (Some w) bare drive = Ok x /\ vec_of n x /\ forall i, (i < n)%nat -> aget 0 w [i] * aget 0 x [i] = aget 0 d [i] + bare_at bare i).
    { unfold xi_of. rewrite Ed. cbn [bind]. unfold div_arr. rewrite Eq. cbn [bind]. unfold bare_at. destruct bare as [b|].
      - destruct (@vec_zip fdiv b w n (Hb eq_refl) Hw) as (p & Ep & Vp & Gp). destruct (@vec_zip radd q p n Vq Vp) as (x & Ex & Vx & Gx).
        rewrite Ep. cbn [bind]. unfold plus_arr. exists x. split; [exact Ex|]. split; [exact Vx|]. intros i Hi. rewrite Gx, Gq, Gp by assumption. field. apply HN, Hi.
      - exists q. split; [reflexivity|]. split; [exact Vq|]. intros i Hi. rewrite Gq by assumption. field. apply HN, Hi. }
    destruct X as (x & Ex & Vx & Gx).
    assert (M : exists G, mean_field_G true (Some w) bare drive = Ok G /\ G = zeros [n]).
    { unfold mean_field_G. rewrite Ex. rewrite Ed. cbn [bind]. destruct (@vec_zip rmul x w n Vx Hw) as (m & Em & Vm & Gm). rewrite Em. cbn [bind].
      destruct (@vec_zip rsub d m n Vd Vm) as (v & Ev & Vv & Gv). unfold minus_arr. rewrite Ev. cbn [bind]. unfold bare_at in Gx. destruct bare as [b|].
      - destruct (@vec_zip radd v b n Vv (Hb eq_refl)) as (g & Eg & Vg & Gg). unfold plus_arr. exists g. split; [exact Eg|].
        apply (@vec_ext g (zeros [n]) n Vg (zeros_vec n)). intros i Hi. rewrite zeros_get by exact Hi. rewrite Gg, Gv, Gm by assumption. specialize (Gx i Hi). 
        replace (aget 0 x [i] * aget 0 w [i]) with (aget 0 d [i] + aget 0 b [i]) by (rewrite <- Gx; ring). ring.
      - exists v. split; [reflexivity|]. apply (@vec_ext v (zeros [n]) n Vv (zeros_vec n)). intros i Hi. rewrite zeros_get by exact Hi. rewrite Gv, Gm by assumption. specialize (Gx i Hi).
        replace (aget 0 x [i] * aget 0 w [i]) with (aget 0 d [i] + 0) by (rewrite <- Gx; ring). ring. }
    destruct M as (G & EG & ->).
    assert (C : exists e, const true (Some w) (xi_of true (Some w) bare drive) = Ok e /\ e = rsum (map (fun i => aget 0 w [i] * (aget 0 x [i] * aget 0 x [i])) (seq 0 n))).
    { unfold const. rewrite Ex. cbn [bind].
      destruct (@np_value F (env_of (str "I") [n]) [str "I"; str "I"] [] (str "I") [w; map_arr (fun v => v * v) x]) as (r & E & Wr & Sr & G);
        [vm_compute; reflexivity| |].
      { destruct Vx as [Wx Sx]. constructor; [split; [exact (proj1 Hw)|rewrite (proj2 Hw); vm_compute; reflexivity]|].
        constructor; [|constructor]. split; [unfold wf, map_arr; cbn [shp dat]; rewrite map_length; exact Wx|]. cbn [map_arr shp]. rewrite Sx. vm_compute. reflexivity. }
      rewrite E. cbn [bind]. eexists. split; [reflexivity|]. rewrite G by constructor.
      change (map (env_of (str "I") [n]) (str "I")) with [n]. rewrite rsum_all_cons. apply rsum_map_ext. intros i Hi. apply in_seq in Hi. rewrite rsum_all_nil.
      unfold product_term, rprod. cbn [combine map fst snd fold_right app].
      change (map (env_of (str "I") [i]) (str "I")) with [i].
      replace (aget 0 (map_arr (fun v => v * v) x) [i]) with (aget 0 x [i] * aget 0 x [i]); [ring|].
      destruct Vx as [Wx Sx]. unfold aget, map_arr. cbn [shp dat]. rewrite (nth_indep (map _ (dat x)) 0 (0 * 0)).
      - rewrite (map_nth (fun v => v * v)). reflexivity.
      - rewrite map_length. rewrite Wx. apply ravel_lt. rewrite Sx. apply inb1. exists i. split; [reflexivity|lia]. }
    destruct C as (e & EC & ->). exists x, (zeros [n]), (rsum (map (fun i => aget 0 w [i] * (aget 0 x [i] * aget 0 x [i])) (seq 0 n))). tauto.
  Qed.
  Lemma unshifted (drive : result (arr F)) d : drive = Ok d -> vec_of n d ->
    xi_of false (Some w) bare drive = Ok (zeros [n]) /\ (forall xi, const false (Some w) xi = Ok (0 : F)) /\
    exists G, mean_field_G false (Some w) bare drive = Ok G /\ vec_of n G /\ forall i, (i < n)%nat -> aget 0 G [i] = aget 0 d [i] + bare_at bare i.
  Proof.
    intros Ed Vd. assert (EX : xi_of false (Some w) bare drive = Ok (zeros [n])) by (unfold xi_of; rewrite (proj2 Hw); reflexivity).
    split; [exact EX|]. split; [reflexivity|]. unfold mean_field_G. rewrite EX, Ed. cbn [bind].
    destruct (@vec_zip rmul _ w n (zeros_vec n) Hw) as (m & Em & Vm & Gm). rewrite Em. cbn [bind]. destruct (@vec_zip rsub d m n Vd Vm) as (v & Ev & Vv & Gv). unfold minus_arr. rewrite Ev. cbn [bind]. unfold bare_at.
    destruct bare as [b|].
    - destruct (@vec_zip radd v b n Vv (Hb eq_refl)) as (g & Eg & Vg & Gg). unfold plus_arr. exists g. split; [exact Eg|]. split; [exact Vg|]. intros i Hi. rewrite Gg, Gv, Gm, zeros_get by assumption. ring.
    - exists v. split; [reflexivity|]. split; [exact Vv|]. intros i Hi. rewrite Gv, Gm, zeros_get by assumption. ring.
  Qed.
End Shift.
