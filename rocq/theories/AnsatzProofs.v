(** Proofs about ansatz names and cluster ranks. *)
From Coq Require Import Sorted String.
From Verif Require Import Base ListAux AnsatzModel AnsatzSpec.
Set Implicit Arguments.
Local Open Scope nat_scope.
Local Open Scope list_scope.

(** * Identifiers *)
Definition enc (c : nat) : pystr :=
  if is_lower c then [c_w; c; c_w] else
  if (c =? c_lp) || (c =? c_rp) then [c_x] else
  if (c =? c_lb) || (c =? c_rb) then [c_y] else
  if c =? c_dash then [c_us] else if c =? c_q then [c_p] else [c].

Lemma flat_map_flat_map {A B C} (f : B -> list C) (g : A -> list B) l :
  flat_map f (flat_map g l) = flat_map (fun x => flat_map f (g x)) l.
Proof. induction l as [|x l IH]; cbn; [reflexivity|]. rewrite flat_map_app, IH. reflexivity. Qed.

Lemma enc_eq s : name_to_identifier s = flat_map enc s.
Proof.
  unfold name_to_identifier, replace_chr. rewrite !flat_map_flat_map. apply flat_map_ext. intros c.
  rewrite <- !flat_map_flat_map. unfold enc.
  assert (L : is_lower c = true -> c <> 40 /\ c <> 41 /\ c <> 91 /\ c <> 93 /\ c <> 45 /\ c <> 39).
  { unfold is_lower. rewrite andb_true_iff, !Nat.leb_le. lia. }
  destruct (is_lower c) eqn:E.
  - destruct (L eq_refl) as (L1 & L2 & L3 & L4 & L5 & L6). unfold c_lp, c_rp, c_lb, c_rb, c_dash, c_q, c_w, c_x, c_y, c_us, c_p.
    repeat (cbn [flat_map app Nat.eqb]; rewrite ?(proj2 (Nat.eqb_neq c 40) L1), ?(proj2 (Nat.eqb_neq c 41) L2),
      ?(proj2 (Nat.eqb_neq c 91) L3), ?(proj2 (Nat.eqb_neq c 93) L4), ?(proj2 (Nat.eqb_neq c 45) L5), ?(proj2 (Nat.eqb_neq c 39) L6)).
    reflexivity.
  - clear L. unfold c_lp, c_rp, c_lb, c_rb, c_dash, c_q, c_w, c_x, c_y, c_us, c_p. cbn [flat_map app].
    destruct (Nat.eqb_spec c 40) as [->|N1]; [reflexivity|]. cbn [flat_map app].
    destruct (Nat.eqb_spec c 41) as [->|N2]; [reflexivity|]. cbn [flat_map app orb].
    destruct (Nat.eqb_spec c 91) as [->|N3]; [reflexivity|]. cbn [flat_map app].
    destruct (Nat.eqb_spec c 93) as [->|N4]; [reflexivity|]. cbn [flat_map app orb].
    destruct (Nat.eqb_spec c 45) as [->|N5]; [reflexivity|]. cbn [flat_map app].
    destruct (Nat.eqb_spec c 39) as [->|N6]; [reflexivity|]. reflexivity.
Qed.

Lemma enc_cases c : (is_lower c = true /\ enc c = [c_w; c; c_w]) \/
  (is_lower c = false /\ exists d, enc c = [d] /\ d <> c_w /\
     (c <> c_us -> ((c = c_lp \/ c = c_rp) /\ d = c_x) \/ ((c = c_lb \/ c = c_rb) /\ d = c_y) \/ (c = c_dash /\ d = c_us) \/
      (c = c_q /\ d = c_p) \/
      (c <> c_lp /\ c <> c_rp /\ c <> c_lb /\ c <> c_rb /\ d = c /\ d <> c_x /\ d <> c_y /\ d <> c_us /\ d <> c_p))).
Proof.
  unfold enc. destruct (is_lower c) eqn:E; [left; split; reflexivity|right; split; [reflexivity|]].
  assert (Hc : ~ (97 <= c <= 122)).
  { intros [H1 H2]. unfold is_lower in E. apply Nat.leb_le in H1, H2. rewrite H1, H2 in E. discriminate. }
  unfold c_lp, c_rp, c_lb, c_rb, c_dash, c_q, c_w, c_x, c_y, c_us, c_p in *.
  destruct (Nat.eqb_spec c 40); [cbn; exists 120; split; [reflexivity|]; lia|].
  destruct (Nat.eqb_spec c 41); [cbn; exists 120; split; [reflexivity|]; lia|].
  destruct (Nat.eqb_spec c 91); [cbn; exists 121; split; [reflexivity|]; lia|].
  destruct (Nat.eqb_spec c 93); [cbn; exists 121; split; [reflexivity|]; lia|]. cbn [orb].
  destruct (Nat.eqb_spec c 45); [exists 95; split; [reflexivity|]; lia|].
  destruct (Nat.eqb_spec c 39); [exists 112; split; [reflexivity|]; lia|].
  exists c. split; [reflexivity|]. lia.
Qed.

Lemma alternate_cons l r o c s : l <> r -> alternate l r o (c :: s) ->
  (c = l -> o = false /\ alternate l r true s) /\ (c = r -> o = true /\ alternate l r false s) /\
  (c <> l -> c <> r -> alternate l r o s).
Proof.
  intros Hlr. cbn [alternate]. intros H. destruct (Nat.eqb_spec c l); [subst; repeat split; try tauto; intros; subst; congruence|].
  destruct (Nat.eqb_spec c r); [subst; repeat split; try tauto; intros; congruence|]. repeat split; try congruence; tauto.
Qed.

Lemma enc_inj s1 : forall s2 o q, alternate c_lp c_rp o s1 -> alternate c_lp c_rp o s2 ->
  alternate c_lb c_rb q s1 -> alternate c_lb c_rb q s2 -> ~ In c_us s1 -> ~ In c_us s2 ->
  flat_map enc s1 = flat_map enc s2 -> s1 = s2.
Proof.
  induction s1 as [|c s1 IH]; intros [|d s2] o q A1 A2 B1 B2 U1 U2 E.
  - reflexivity.
  - exfalso. cbn [flat_map] in E. destruct (enc_cases d) as [[_ X]|[_ (x & X & _)]]; rewrite X in E; discriminate.
  - exfalso. cbn [flat_map] in E. destruct (enc_cases c) as [[_ X]|[_ (x & X & _)]]; rewrite X in E; discriminate.
  - cbn [flat_map] in E.
    apply alternate_cons in A1 as (A1l & A1r & A1n); [|discriminate]. apply alternate_cons in A2 as (A2l & A2r & A2n); [|discriminate].
    apply alternate_cons in B1 as (B1l & B1r & B1n); [|discriminate]. apply alternate_cons in B2 as (B2l & B2r & B2n); [|discriminate].
    assert (Nc : c <> c_us) by (intros ->; apply U1; left; reflexivity).
    assert (Nd : d <> c_us) by (intros ->; apply U2; left; reflexivity).
    assert (U1' : ~ In c_us s1) by (intros X; apply U1; right; exact X).
    assert (U2' : ~ In c_us s2) by (intros X; apply U2; right; exact X).
    destruct (enc_cases c) as [[Lc Xc]|[Lc (x & Xc & Wc & Kc)]]; destruct (enc_cases d) as [[Ld Xd]|[Ld (y & Xd & Wd & Kd)]];
      rewrite Xc, Xd in E; cbn [app] in E.
    + injection E as Ecd E. subst d.
      assert (Nl : c <> 40 /\ c <> 41 /\ c <> 91 /\ c <> 93).
      { unfold is_lower in Lc. apply andb_true_iff in Lc as [L1 L2]. apply Nat.leb_le in L1, L2. lia. }
      f_equal. apply (IH s2 o q); auto; [apply A1n|apply A2n|apply B1n|apply B2n]; unfold c_lp, c_rp, c_lb, c_rb; tauto.
    + injection E as E1 E. congruence.
    + injection E as E1 E. congruence.
    + injection E as E1 E. subst y. specialize (Kc Nc). specialize (Kd Nd).
      assert (D1 : c_lp <> c_rp /\ c_lp <> c_lb /\ c_lp <> c_rb /\ c_rp <> c_lb /\ c_rp <> c_rb /\ c_lb <> c_rb) by (repeat split; discriminate).
      assert (D2 : c_x <> c_y /\ c_x <> c_us /\ c_x <> c_p /\ c_y <> c_us /\ c_y <> c_p /\ c_us <> c_p) by (repeat split; discriminate).
      assert (D3 : c_dash <> c_lp /\ c_dash <> c_rp /\ c_dash <> c_lb /\ c_dash <> c_rb /\ c_q <> c_lp /\ c_q <> c_rp /\ c_q <> c_lb /\ c_q <> c_rb) by (repeat split; discriminate).
      destruct D1 as (? & ? & ? & ? & ? & ?), D2 as (? & ? & ? & ? & ? & ?), D3 as (? & ? & ? & ? & ? & ? & ? & ?).
      destruct Kc as [[[Ec|Ec] Ex]|[[[Ec|Ec] Ex]|[[Ec Ex]|[[Ec Ex]|(N1 & N2 & N3 & N4 & Ex & N5 & N6 & N7 & N8)]]]];
      destruct Kd as [[[Ed|Ed] Ey]|[[[Ed|Ed] Ey]|[[Ed Ey]|[[Ed Ey]|(M1 & M2 & M3 & M4 & Ey & M5 & M6 & M7 & M8)]]]];
      try (exfalso; clear - Ex Ey N5 N6 N7 N8; congruence); try (exfalso; clear - Ex Ey M5 M6 M7 M8; congruence); try (exfalso; rewrite Ex in Ey; discriminate Ey).
      * subst. destruct (A1l eq_refl) as [-> ?]. f_equal. apply (IH s2 true q); solve [assumption|apply A1n; congruence|apply A2n; congruence|apply B1n; congruence|apply B2n; congruence|apply A1l; reflexivity|apply A1r; reflexivity|apply A2l; reflexivity|apply A2r; reflexivity|apply B1l; reflexivity|apply B1r; reflexivity|apply B2l; reflexivity|apply B2r; reflexivity].
      * subst. destruct (A1l eq_refl), (A2r eq_refl). congruence.
      * subst. destruct (A1r eq_refl), (A2l eq_refl). congruence.
      * subst. destruct (A1r eq_refl) as [-> ?]. f_equal. apply (IH s2 false q); solve [assumption|apply A1n; congruence|apply A2n; congruence|apply B1n; congruence|apply B2n; congruence|apply A1l; reflexivity|apply A1r; reflexivity|apply A2l; reflexivity|apply A2r; reflexivity|apply B1l; reflexivity|apply B1r; reflexivity|apply B2l; reflexivity|apply B2r; reflexivity].
      * subst. destruct (B1l eq_refl) as [-> ?]. f_equal. apply (IH s2 o true); solve [assumption|apply A1n; congruence|apply A2n; congruence|apply B1n; congruence|apply B2n; congruence|apply A1l; reflexivity|apply A1r; reflexivity|apply A2l; reflexivity|apply A2r; reflexivity|apply B1l; reflexivity|apply B1r; reflexivity|apply B2l; reflexivity|apply B2r; reflexivity].
      * subst. destruct (B1l eq_refl), (B2r eq_refl). congruence.
      * subst. destruct (B1r eq_refl), (B2l eq_refl). congruence.
      * subst. destruct (B1r eq_refl) as [-> ?]. f_equal. apply (IH s2 o false); solve [assumption|apply A1n; congruence|apply A2n; congruence|apply B1n; congruence|apply B2n; congruence|apply A1l; reflexivity|apply A1r; reflexivity|apply A2l; reflexivity|apply A2r; reflexivity|apply B1l; reflexivity|apply B1r; reflexivity|apply B2l; reflexivity|apply B2r; reflexivity].
      * subst. f_equal. apply (IH s2 o q); solve [assumption|apply A1n; congruence|apply A2n; congruence|apply B1n; congruence|apply B2n; congruence|apply A1l; reflexivity|apply A1r; reflexivity|apply A2l; reflexivity|apply A2r; reflexivity|apply B1l; reflexivity|apply B1r; reflexivity|apply B2l; reflexivity|apply B2r; reflexivity].
      * subst. f_equal. apply (IH s2 o q); solve [assumption|apply A1n; congruence|apply A2n; congruence|apply B1n; congruence|apply B2n; congruence|apply A1l; reflexivity|apply A1r; reflexivity|apply A2l; reflexivity|apply A2r; reflexivity|apply B1l; reflexivity|apply B1r; reflexivity|apply B2l; reflexivity|apply B2r; reflexivity].
      * subst. f_equal. apply (IH s2 o q); solve [assumption|apply A1n; congruence|apply A2n; congruence|apply B1n; congruence|apply B2n; congruence|apply A1l; reflexivity|apply A1r; reflexivity|apply A2l; reflexivity|apply A2r; reflexivity|apply B1l; reflexivity|apply B1r; reflexivity|apply B2l; reflexivity|apply B2r; reflexivity].
Qed.

Lemma identifiers_distinct n1 n2 : method_name n1 -> method_name n2 -> name_to_identifier n1 = name_to_identifier n2 -> n1 = n2.
Proof.
  intros (A1 & B1 & U1) (A2 & B2 & U2) E. rewrite !enc_eq in E. apply (@enc_inj n1 n2 false false); assumption.
Qed.

(** Round trip. *)
Lemma replace_chr1_app a b u v : ~ In a u -> replace_chr1 a b (u ++ v) = u ++ replace_chr1 a b v.
Proof.
  induction u as [|c u IH]; intros H; [reflexivity|]. cbn [app replace_chr1].
  destruct (Nat.eqb_spec c a) as [->|]; [exfalso; apply H; left; reflexivity|]. f_equal. apply IH. intros X. apply H. right; exact X.
Qed.
Lemma memb_In x l : memb x l = true <-> In x l.
Proof.
  unfold memb. rewrite existsb_exists. split; [intros (y & H & E); apply Nat.eqb_eq in E; subst; exact H|].
  intros H. exists x. split; [exact H|apply Nat.eqb_refl].
Qed.

Definition br (a l r c : nat) : nat := if (c =? l) || (c =? r) then a else c.

Lemma map_br_app a l r u : (forall c, In c u -> c <> l /\ c <> r) -> map (br a l r) u = u.
Proof.
  induction u as [|c u IH]; intros H; [reflexivity|]. cbn [map]. destruct (H c ltac:(left; reflexivity)) as [H1 H2].
  unfold br at 1. rewrite (proj2 (Nat.eqb_neq c l) H1), (proj2 (Nat.eqb_neq c r) H2). cbn [orb]. f_equal. apply IH.
  intros d Hd. apply H. right; exact Hd.
Qed.

Lemma split_first l r o s : l <> r -> alternate l r o s ->
  (forall c, In c s -> c <> l /\ c <> r) \/
  exists u v, s = u ++ (if o then r else l) :: v /\ (forall c, In c u -> c <> l /\ c <> r) /\ alternate l r (negb o) v.
Proof.
  intros Hlr. induction s as [|c s IH]; intros A; [left; intros c []|].
  apply alternate_cons in A as (Al & Ar & An); [|exact Hlr].
  destruct (Nat.eq_dec c l) as [E|N]; [destruct (Al E) as [-> A']; right; exists [], s; subst; repeat split; try assumption; destruct H|].
  destruct (Nat.eq_dec c r) as [E|N2]; [destruct (Ar E) as [-> A']; right; exists [], s; subst; repeat split; try assumption; destruct H|].
  destruct (IH (An N N2)) as [H|(u & v & -> & H & A')].
  - left. intros d [<-|Hd]; [tauto|apply H, Hd].
  - right. exists (c :: u), v. split; [reflexivity|]. split; [|exact A']. intros d [<-|Hd]; [tauto|apply H, Hd].
Qed.

Lemma unbracket_ok a l r : l <> r -> a <> l -> a <> r -> forall fuel s pre, length s <= fuel -> alternate l r false s -> ~ In a s -> ~ In a pre ->
  unbracket fuel a l r (pre ++ map (br a l r) s) = pre ++ s.
Proof.
  intros Hlr Hal Har. induction fuel as [|fuel IH]; intros s pre HL A Ha Hp.
  - destruct s; [|cbn in HL; lia]. reflexivity.
  - destruct (split_first _ _ Hlr A) as [H|(u & v & -> & Hu & A')].
    + rewrite map_br_app by exact H. cbn [unbracket]. destruct (memb a (pre ++ s)) eqn:E; [|reflexivity].
      exfalso. apply memb_In, in_app_or in E. tauto.
    + assert (Hau : ~ In a u) by (intros X; apply Ha, in_or_app; left; exact X).
      assert (Hav : ~ In a v) by (intros X; apply Ha, in_or_app; right; right; exact X).
      cbn [negb] in A'. rewrite map_app, (map_br_app a u Hu). cbn [map]. unfold br at 1. rewrite Nat.eqb_refl. cbn [orb].
      rewrite app_assoc. cbn [unbracket].
      rewrite (proj2 (memb_In a _)) by (apply in_or_app; right; left; reflexivity).
      rewrite replace_chr1_app by (intros X; apply in_app_or in X; tauto). cbn [replace_chr1]. rewrite Nat.eqb_refl.
      destruct (split_first _ _ Hlr A') as [H|(u' & v' & -> & Hu' & A'')].
      * rewrite map_br_app by exact H.
        replace ((pre ++ u) ++ l :: v) with (((pre ++ u) ++ [l]) ++ v) by (rewrite <- !app_assoc; reflexivity).
        assert (X : ~ In a (((pre ++ u) ++ [l]) ++ v)) by (rewrite !in_app_iff; cbn; intuition congruence).
        assert (Y : forall s, ~ In a s -> replace_chr1 a r s = s).
        { intros s0 Hs0. rewrite <- (app_nil_r s0) at 1. rewrite replace_chr1_app by exact Hs0. apply app_nil_r. }
        rewrite (Y _ X). assert (Z : unbracket fuel a l r (((pre ++ u) ++ [l]) ++ v) = ((pre ++ u) ++ [l]) ++ v).
        { destruct fuel; [reflexivity|]. cbn [unbracket]. destruct (memb a _) eqn:E; [|reflexivity]. exfalso. apply memb_In in E. exact (X E). }
        rewrite Z, <- !app_assoc. reflexivity.
      * assert (Hau' : ~ In a u') by (intros X; apply Hav, in_or_app; left; exact X).
        assert (Hav' : ~ In a v') by (intros X; apply Hav, in_or_app; right; right; exact X).
        rewrite map_app, (map_br_app a _ Hu'). cbn [map negb]. unfold br at 1. rewrite Nat.eqb_refl, orb_true_r.
        replace ((pre ++ u) ++ l :: u' ++ a :: map (br a l r) v') with (((pre ++ u) ++ [l] ++ u') ++ a :: map (br a l r) v')
          by (rewrite <- !app_assoc; reflexivity).
        rewrite replace_chr1_app by (rewrite !in_app_iff; cbn; intuition congruence). cbn [replace_chr1]. rewrite Nat.eqb_refl.
        replace (((pre ++ u) ++ [l] ++ u') ++ r :: map (br a l r) v') with (((pre ++ u) ++ [l] ++ u' ++ [r]) ++ map (br a l r) v')
          by (rewrite <- !app_assoc; reflexivity).
        rewrite IH.
        -- rewrite <- !app_assoc. reflexivity.
        -- rewrite !app_length in HL. cbn [length] in HL. rewrite app_length in HL. cbn [length] in HL. lia.
        -- exact A''.
        -- exact Hav'.
        -- rewrite !in_app_iff. cbn. intuition congruence.
Qed.

Lemma unbracket_none fuel a l r s : ~ In a s -> unbracket fuel a l r s = s.
Proof. intros H. destruct fuel; [reflexivity|]. cbn. destruct (memb a s) eqn:E; [|reflexivity]. exfalso. apply memb_In in E. exact (H E). Qed.

Lemma flat_map_single {A B} (f : A -> list B) (g : A -> B) l : (forall x, In x l -> f x = [g x]) -> flat_map f l = map g l.
Proof. induction l as [|x l IH]; intros H; cbn; [reflexivity|]. rewrite H by (left; reflexivity). cbn. f_equal. apply IH. intros y Hy. apply H. right; exact Hy. Qed.

Definition prime (c : nat) : nat := if c =? c_q then c_p else c.

Lemma alternate_map_prime o s : alternate c_lp c_rp o s -> alternate c_lp c_rp o (map prime s).
Proof.
  revert o; induction s as [|c s IH]; intros o H; [exact I|]. cbn [map alternate] in *. unfold prime at 1 3.
  destruct (Nat.eqb_spec c c_q) as [->|N].
  - change (c_p =? c_lp) with false. change (c_p =? c_rp) with false. apply IH, H.
  - destruct (c =? c_lp); [split; [tauto|apply IH; tauto]|]. destruct (c =? c_rp); [split; [tauto|apply IH; tauto]|]. apply IH, H.
Qed.

Lemma round_trip n : plain_name n -> identifier_to_name (name_to_identifier n) = n.
Proof.
  intros [A H]. unfold identifier_to_name. rewrite enc_eq. cbv zeta.
  set (t := map prime n).
  assert (E : replace_chr c_w [] (replace_chr c_dash [c_us] (flat_map enc n)) = map (br c_x c_lp c_rp) t).
  { unfold replace_chr. rewrite !flat_map_flat_map. unfold t. rewrite map_map. apply flat_map_single. intros c Hc. specialize (H c Hc).
    unfold c_dash, c_lb, c_rb, c_w, c_x, c_y, c_p in H. cbn [In] in H.
    unfold enc, prime, br, c_lp, c_rp, c_lb, c_rb, c_dash, c_q, c_w, c_x, c_y, c_us, c_p.
    destruct (is_lower c) eqn:L.
    - assert (97 <= c <= 122) by (unfold is_lower in L; apply andb_true_iff in L as [L1 L2]; apply Nat.leb_le in L1, L2; lia).
      cbn [flat_map app Nat.eqb]. rewrite (proj2 (Nat.eqb_neq c 45)) by lia. cbn [flat_map app Nat.eqb].
      rewrite (proj2 (Nat.eqb_neq c 119)) by lia. cbn [app]. rewrite (proj2 (Nat.eqb_neq c 39)) by lia.
      rewrite (proj2 (Nat.eqb_neq c 40)), (proj2 (Nat.eqb_neq c 41)) by lia. reflexivity.
    - destruct (Nat.eqb_spec c 40) as [->|]; [reflexivity|]. destruct (Nat.eqb_spec c 41) as [->|]; [reflexivity|]. cbn [orb].
      rewrite (proj2 (Nat.eqb_neq c 91)), (proj2 (Nat.eqb_neq c 93)), (proj2 (Nat.eqb_neq c 45)) by lia. cbn [orb].
      destruct (Nat.eqb_spec c 39) as [->|]; [reflexivity|]. cbn [flat_map app].
      rewrite (proj2 (Nat.eqb_neq c 45)) by lia. cbn [flat_map app].
      rewrite (proj2 (Nat.eqb_neq c 119)) by lia. cbn [app].
      rewrite (proj2 (Nat.eqb_neq c 40)), (proj2 (Nat.eqb_neq c 41)) by assumption. reflexivity. }
  assert (T : forall c, In c t -> c <> c_x /\ c <> c_y).
  { intros c Hc. unfold t in Hc. apply in_map_iff in Hc as (d & <- & Hd). specialize (H d Hd). unfold prime. cbn [In] in H.
    destruct (d =? c_q); [split; discriminate|]. split; intros ->; tauto. }
  rewrite E. rewrite map_length.
  pose proof (@unbracket_ok c_x c_lp c_rp ltac:(discriminate) ltac:(discriminate) ltac:(discriminate) (length t) t [] (le_n _)) as X.
  cbn [app] in X. rewrite X.
  - rewrite unbracket_none by (intros Y; apply T in Y; tauto). unfold t, replace_chr. rewrite flat_map_concat_map, map_map, <- flat_map_concat_map.
    rewrite (@flat_map_single _ _ _ (fun c => c)); [apply map_id|].
    intros c Hc. specialize (H c Hc). cbn [In] in H. unfold prime. destruct (Nat.eqb_spec c c_q) as [->|N]; [reflexivity|].
    rewrite (proj2 (Nat.eqb_neq c c_p)) by (unfold c_p in *; lia). reflexivity.
  - apply alternate_map_prime, A.
  - intros Y. apply T in Y. tauto.
  - intros [].
Qed.
