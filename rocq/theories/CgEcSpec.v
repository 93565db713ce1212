(** Vocabulary for external corrections: amplitudes of triples and quadruples in a space of active orbitals. *)
From Coq Require Import List ZArith String.
From Verif Require Import Base Alg ArrModel CgModel CgSpec CgFormSpec CgNames CgTables CgTables2 CgRelSpec CgLagSpec CgPairs CgExpSpec.
From Verif Require Import Cg_GecCC Cg_UecCC Cg_RecCC Cg_GCCSDTQ Cg_GCCSD.
Import ListNotations.
Local Open Scope list_scope.
Local Open Scope nat_scope.

(** Active orbitals have kinds of their own: 8, 9 for spin (or spatial) orbitals, occupied and virtual; 10, 11 for spin alpha and 12, 13 for
    spin beta.  The label of the active orbital that belongs to [l] is [raise l]. *)
Definition raise (l : nat) : nat := if l <? 40 then l + 80 else l + 60.
(** The matrices that choose the active orbitals: entry (I, i) is one if the orbital i is the I-th active one, zero otherwise.  The theorems
    hold for all matrices. *)
Definition n_eo : ref := xO 700. Definition n_ev : ref := xO 701.
Definition n_eo'a : ref := xO 702. Definition n_ev'a : ref := xO 703.
Definition n_eo'b : ref := xO 704. Definition n_ev'b : ref := xO 705.
Definition choice (k : cls) : ref := match k with 0 => n_eo | 1 => n_ev | 4 => n_eo'a | 5 => n_ev'a | 6 => n_eo'b | _ => n_ev'b end.
Definition chosen (l : nat) : ref * list nat := (choice (kind l), [raise l; l]).
Definition choices_general : list (ref * list cls) := [(n_eo, [8; 0]); (n_ev, [9; 1])].
Definition choices_spin : list (ref * list cls) := [(n_eo'a, [10; 4]); (n_ev'a, [11; 5]); (n_eo'b, [12; 6]); (n_ev'b, [13; 7])].

Definition with_factors (fs : list (ref * list nat)) (f : formula) : formula := map (fun m => (fst m, fs ++ snd m)) f.
(** The part of a tensor at the active orbitals of the axes [act]: sum_i e(I, i) x(i, ...). *)
Definition part (act : list bool) (q : list nat * formula) : list nat * formula :=
  (map (fun p : bool * nat => if fst p then raise (snd p) else snd p) (combine act (fst q)),
   with_factors (map chosen (map snd (filter fst (combine act (fst q))))) (snd q)).
Definition parts (T : table) (y x : ref) (act : list bool) : table := map (fun q => (y, part act (snd q))) (filter (fun q => Pos.eqb (fst q) x) T).
(** A tensor over the active orbitals, and the tensor over all orbitals that it is inflated to: sum_I e(I, i) x(I, ...). *)
Definition raised (f : formula) : formula := map (fun m => (fst m, map (fun t => (fst t, map raise (snd t))) (snd m))) f.
Definition active (q : list nat * formula) : list nat * formula := (map raise (fst q), raised (snd q)).
Definition inflated (q : list nat * formula) : list nat * formula := (fst q, with_factors (map chosen (fst q)) (raised (snd q))).
Definition is_t3_t4 (x : ref) : bool :=
  existsb (Pos.eqb x) [n_t3; n_t4; n_t4a; n_t3'aaaaaa; n_t3'abaaba; n_t3'babbab; n_t3'bbbbbb; n_t4'aaaaaaaa; n_t4'aaabaaab; n_t4'abababab; n_t4'abbbabbb; n_t4'bbbbbbbb].
Definition t3_t4 {A} (l : list (ref * A)) : list (ref * A) := filter (fun q => is_t3_t4 (fst q)) l.
Definition others {A} (l : list (ref * A)) : list (ref * A) := filter (fun q => negb (is_t3_t4 (fst q))) l.
Definition named {A} (xs : list ref) (l : list (ref * A)) : list (ref * A) := filter (fun q => existsb (Pos.eqb (fst q)) xs) l.
Definition active_kind (c : cls) : cls := kind (raise (10 * c)).
Definition active_amplitudes (l : list (ref * list cls)) : list (ref * list cls) := map (fun q => (fst q, map active_kind (snd q))) (t3_t4 l).

Definition Y := true. Definition N := false.
(** ** Spin orbitals *)
Definition general_integrals : list ref := [n_f'oo; n_f'ov; n_f'vv; n_v'oooo; n_v'ooov; n_v'oovv; n_v'ovov; n_v'ovvv; n_v'vvvv].
Definition g_tensors : list (ref * list cls) := named (n_t1 :: n_t2 :: general_integrals) general_basis ++ active_amplitudes (general_tensors Cluster) ++ choices_general.
Definition g_symmetries : symmetries := named (n_t2 :: general_integrals) general_basis_symmetries ++ t3_t4 (general_antisymmetry Cluster).
(** The arguments of GecCC.update_amps_external and update_amps_mixed. *)
Definition g_parts (T : table) : table :=
  parts T n_f'OV n_f'ov [Y; Y] ++ parts T n_v'OOVV n_v'oovv [Y; Y; Y; Y] ++ parts T n_v'oVOO n_v'ovoo [N; Y; Y; Y] ++ parts T n_v'OvVV n_v'ovvv [Y; N; Y; Y] ++
  parts T n_v'oOvV n_v'oovv [N; Y; N; Y] ++ parts T n_v'OOvV n_v'oovv [Y; Y; N; Y] ++ parts T n_v'oOVV n_v'oovv [N; Y; Y; Y] ++ named [n_t1] T.
Definition g_active : table := g_parts general ++ map (fun q => (fst q, active (snd q))) (t3_t4 (own_general Cluster)).
(** The arguments of GCCSDTQ.update_amps: triples and quadruples are zero outside the active space. *)
Definition g_inflated : table := map (fun q => (fst q, inflated (snd q))) (t3_t4 (own_general Cluster)) ++ others general.

(** A block [y] of the corrections returned by call [k], added to the amplitudes at the active orbitals of the axes [act]. *)
Definition added (k : nat) (y : ref) (act : list bool) (out : list nat) : formula :=
  [mono 1 1 (map (fun t => (nm 0 (fst t), snd t)) (map chosen (map snd (filter fst (combine act out)))) ++ [(nm k y, fst (part act (out, [])))])].
Definition ij := [0; 1; 10; 11].
Definition added_doubles (k : nat) : formula :=
  added k n_t2new'OOVV [Y; Y; Y; Y] ij ++ added k n_t2new'OoVV [Y; N; Y; Y] ij ++ added k n_t2new'oOVV [N; Y; Y; Y] ij ++
  added k n_t2new'OOvV [Y; Y; N; Y] ij ++ added k n_t2new'OOVv [Y; Y; Y; N] ij.

(** GCCSDTQ.update_amps with triples and quadruples in the active space, GCCSD.update_amps with the same singles and doubles and the two
    functions of GecCC are called.  The singles and doubles of the first are those of the second plus the corrections. *)
Definition exact_corrections : Prop :=
  forall (F : fld) sz, characteristic_zero F -> forall method path, path_ok path ->
  forall eB : env F, symmetric sz g_symmetries g_tensors eB ->
  forall e1 e2 e3 e4, called_with sz eB g_inflated GCCSDTQ_update_amps e1 -> called_with sz eB general GCCSD_update_amps e2 ->
    called_with sz eB g_active GecCC_update_amps_external e3 -> called_with sz eB g_active GecCC_update_amps_mixed e4 ->
  exists r1 r2 r3 r4, run method path sz GCCSDTQ_update_amps e1 = Ok r1 /\ run method path sz GCCSD_update_amps e2 = Ok r2 /\
    run method path sz GecCC_update_amps_external e3 = Ok r3 /\ run method path sz GecCC_update_amps_mixed e4 = Ok r4 /\
    let all := together [eB; results F (p_out GCCSDTQ_update_amps) r1; results F (p_out GCCSD_update_amps) r2;
                         results F (p_out GecCC_update_amps_external) r3; results F (p_out GecCC_update_amps_mixed) r4] in
    (forall idx, inb (map sz [0; 1]) idx ->
       value sz all [0; 10] [mono 1 1 [(nm 1 n_t1new, [0; 10])]] idx =
       value sz all [0; 10] ([mono 1 1 [(nm 2 n_t1new, [0; 10])]] ++ added 3 n_t1new'OV [Y; Y] [0; 10]) idx) /\
    (forall idx, inb (map sz [0; 0; 1; 1]) idx ->
       value sz all ij [mono 1 1 [(nm 1 n_t2new, ij)]] idx =
       value sz all ij ([mono 1 1 [(nm 2 n_t2new, ij)]] ++ added_doubles 3 ++ added_doubles 4) idx).

(** ** Spin orbitals of either spin *)
Definition u_integrals : list ref :=
  [n_f'aa'ov; n_f'bb'ov; n_v'aaaa'ooov; n_v'aaaa'ovov; n_v'aaaa'ovvv; n_v'bbbb'ooov; n_v'bbbb'ovov; n_v'bbbb'ovvv;
   n_v'aabb'ooov; n_v'aabb'ovoo; n_v'aabb'ovov; n_v'aabb'ovvv; n_v'bbaa'ovvv].
Definition u_tensors : list (ref * list cls) :=
  named (n_t1'aa :: n_t1'bb :: u_integrals) spin_blocks ++ active_amplitudes (unrestricted_tensors Cluster) ++ choices_spin.
Definition u_symmetries : symmetries := named u_integrals spin_blocks_symmetries ++ t3_t4 (unrestricted_antisymmetry Cluster).
(** The arguments of UecCC.update_amps_external and update_amps_mixed. *)
Definition u_parts (T : table) : table :=
  parts T n_f'aa'OV n_f'aa'ov [Y; Y] ++ parts T n_f'bb'OV n_f'bb'ov [Y; Y] ++
  parts T n_v'aaaa'OVOV n_v'aaaa'ovov [Y; Y; Y; Y] ++ parts T n_v'bbbb'OVOV n_v'bbbb'ovov [Y; Y; Y; Y] ++ parts T n_v'aabb'OVOV n_v'aabb'ovov [Y; Y; Y; Y] ++
  parts T n_v'aaaa'oOOV n_v'aaaa'ooov [N; Y; Y; Y] ++ parts T n_v'bbbb'oOOV n_v'bbbb'ooov [N; Y; Y; Y] ++ parts T n_v'aabb'oOOV n_v'aabb'ooov [N; Y; Y; Y] ++
  parts T n_v'aabb'OVoO n_v'aabb'ovoo [Y; Y; N; Y] ++
  parts T n_v'aaaa'OVvV n_v'aaaa'ovvv [Y; Y; N; Y] ++ parts T n_v'bbbb'OVvV n_v'bbbb'ovvv [Y; Y; N; Y] ++ parts T n_v'aabb'OVvV n_v'aabb'ovvv [Y; Y; N; Y] ++
  parts T n_v'aabb'vVOV n_v'aabb'vvov [N; Y; Y; Y] ++
  parts T n_v'aaaa'oVOV n_v'aaaa'ovov [N; Y; Y; Y] ++ parts T n_v'bbbb'oVOV n_v'bbbb'ovov [N; Y; Y; Y] ++ parts T n_v'aabb'oVOV n_v'aabb'ovov [N; Y; Y; Y] ++
  parts T n_v'aaaa'OVOv n_v'aaaa'ovov [Y; Y; Y; N] ++ parts T n_v'bbbb'OVOv n_v'bbbb'ovov [Y; Y; Y; N] ++ parts T n_v'aabb'OVOv n_v'aabb'ovov [Y; Y; Y; N] ++
  parts T n_v'aabb'OvOV n_v'aabb'ovov [Y; N; Y; Y] ++ parts T n_v'aabb'OVoV n_v'aabb'ovov [Y; Y; N; Y] ++
  parts T n_v'aaaa'oVOv n_v'aaaa'ovov [N; Y; Y; N] ++ parts T n_v'bbbb'oVOv n_v'bbbb'ovov [N; Y; Y; N] ++
  parts T n_v'aaaa'ovOV n_v'aaaa'ovov [N; N; Y; Y] ++ parts T n_v'bbbb'ovOV n_v'bbbb'ovov [N; N; Y; Y] ++ parts T n_v'aabb'ovOV n_v'aabb'ovov [N; N; Y; Y] ++
  parts T n_v'aabb'OVov n_v'aabb'ovov [Y; Y; N; N] ++ named [n_t1'aa; n_t1'bb] T.
Definition u_active (amplitudes : table) : table := u_parts unrestricted ++ map (fun q => (fst q, active (snd q))) (t3_t4 amplitudes).
(** The same spin orbitals in the arguments of GecCC; blocks that are not listed, which do not conserve
    the spin, are zero. *)
Fixpoint spins (n : nat) : list (list bool) := match n with 0 => [[]] | S n' => flat_map (fun s => [false :: s; true :: s]) (spins n') end.
Definition g_spins : table :=
  flat_map (fun n => flat_map (fun s => map (fun s' => let os := occupied_of s in let vs := virtual_of s' in
                                            (spin_orbital_name Cluster n, active (os ++ vs, in_blocks Cluster os vs)))
                                           (filter (fun s' => length (filter negb s') =? length (filter negb s)) (spins n))) (spins n)) [3; 4].
Definition g_active_spins : table := g_parts spin_orbital ++ g_spins.
Definition active_spin_split (c : cls) : list cls := match c with 8 => [10; 12] | 9 => [11; 13] | _ => spin_split c end.
(** Corrections of GecCC in terms of those of UecCC. *)
Definition u_block (act : list bool) (nb : nat) : ref :=
  match act, nb with
  | [true; true], 0 => n_t1new'aa'OV | [true; true], _ => n_t1new'bb'OV
  | [true; true; true; true], 0 => n_t2new'aaaa'OOVV | [true; true; true; true], 1 => n_t2new'abab'OOVV | [true; true; true; true], _ => n_t2new'bbbb'OOVV
  | [true; false; _; _], 0 => n_t2new'aaaa'OoVV | [true; false; _; _], 1 => n_t2new'abab'OoVV | [true; false; _; _], _ => n_t2new'bbbb'OoVV
  | [false; true; _; _], 0 => n_t2new'aaaa'oOVV | [false; true; _; _], 1 => n_t2new'abab'oOVV | [false; true; _; _], _ => n_t2new'bbbb'oOVV
  | [_; _; false; true], 0 => n_t2new'aaaa'OOvV | [_; _; false; true], 1 => n_t2new'abab'OOvV | [_; _; false; true], _ => n_t2new'bbbb'OOvV
  | _, 0 => n_t2new'aaaa'OOVv | _, 1 => n_t2new'abab'OOVv | _, _ => n_t2new'bbbb'OOVv
  end.
(** Indices with the alpha orbital before the beta orbital, and the activity in that order. *)
Definition g_block (act : list bool) (os vs : list nat) : list nat * formula :=
  let nb := length (filter beta os) in
  let lab l a := if a : bool then raise l else l in
  let aos := combine os (firstn (length os) act) in let avs := combine vs (skipn (length os) act) in
  let order l := filter (fun p : nat * bool => negb (beta (fst p))) l ++ filter (fun p : nat * bool => beta (fst p)) l in
  let l := order aos ++ order avs in
  (map (fun p => lab (fst p) (snd p)) (aos ++ avs),
   if nb =? length (filter beta vs) then
     [mono (if Nat.odd (inversions (map beta os) + inversions (map beta vs)) then -1 else 1) 1 [(u_block (map snd l) nb, map (fun p => lab (fst p) (snd p)) l)]]
   else []).
Definition g_blocks (y : ref) (n : nat) (act : list bool) : table :=
  flat_map (fun s => map (fun s' => (y, g_block act (occupied_of s) (virtual_of s'))) (spins n)) (spins n).
Definition g_results : table :=
  g_blocks n_t1new'OV 1 [Y; Y] ++ g_blocks n_t2new'OOVV 2 [Y; Y; Y; Y] ++ g_blocks n_t2new'OoVV 2 [Y; N; Y; Y] ++ g_blocks n_t2new'oOVV 2 [N; Y; Y; Y] ++
  g_blocks n_t2new'OOvV 2 [Y; Y; N; Y] ++ g_blocks n_t2new'OOVv 2 [Y; Y; Y; N].

(** ** Spatial orbitals *)
Definition r_integrals : list ref := [n_f'ov; n_v'ooov; n_v'ovov; n_v'ovvv].
Definition r_tensors : list (ref * list cls) := named (n_t1 :: r_integrals) spatial ++ active_amplitudes (spatial_tensors Cluster) ++ choices_general.
Definition r_symmetries : symmetries := named r_integrals spatial_symmetries ++ t3_t4 (spatial_symmetry Cluster).
(** The arguments of RecCC.update_amps_external and update_amps_mixed. *)
Definition r_parts (T : table) : table :=
  parts T n_f'OV n_f'ov [Y; Y] ++ parts T n_v'OVOV n_v'ovov [Y; Y; Y; Y] ++ parts T n_v'oOOV n_v'ooov [N; Y; Y; Y] ++ parts T n_v'OVvV n_v'ovvv [Y; Y; N; Y] ++
  parts T n_v'oVOv n_v'ovov [N; Y; Y; N] ++ parts T n_v'ovOV n_v'ovov [N; N; Y; Y] ++ parts T n_v'OVOv n_v'ovov [Y; Y; Y; N] ++ parts T n_v'oVOV n_v'ovov [N; Y; Y; Y] ++
  named [n_t1] T.
Definition r_active : table := r_parts restricted ++ map (fun q => (fst q, active (snd q))) (t3_t4 (own_restricted Cluster)).
(** The same closed-shell system in the arguments of UecCC: the blocks of the amplitudes, divided by n_alpha! n_beta!, in terms of
    the spatial orbitals. *)
Definition u_closed_amplitudes : table :=
  flat_map (fun n => map (fun nb => let p := stored n nb in let os := occupied_of p in let vs := virtual_of p in
    (block_name Cluster n nb, (map spatial_label (os ++ vs), divided_by_spins (in_spatial Cluster) os vs))) (seq 0 (S n))) [3; 4].
Definition u_active_closed : table := u_parts closed_shell ++ map (fun q => (fst q, active (snd q))) u_closed_amplitudes.
Definition active_closed_split (c : cls) : list cls := match c with 10 | 12 => [8] | 11 | 13 => [9] | _ => closed_split c end.
(** Corrections of UecCC in terms of those of RecCC: those of the blocks aa, bb and abab are equal to the restricted ones, and those of aaaa and
    bbbb are their antisymmetric part. *)
Definition r_block (act : list bool) : ref :=
  match act with
  | [true; true] => n_t1new'OV | [true; true; true; true] => n_t2new'OOVV
  | [true; false; _; _] => n_t2new'OoVV | [false; true; _; _] => n_t2new'oOVV | [_; _; false; true] => n_t2new'OOvV | _ => n_t2new'OOVv
  end.
Definition u_closed_block (act : list bool) (spin : list bool) : list nat * formula :=
  let n := length spin in
  let os := combine (seq 0 n) (firstn n act) in let vs := combine (seq 10 n) (skipn n act) in
  let lab (p : nat * bool) := if snd p then raise (fst p) else fst p in
  let same := forallb negb spin || forallb (fun b => b) spin in
  let term (neg : bool) l := mono (if neg then -1 else 1) 1 [(r_block (map snd l), map lab l)] in
  (map lab (os ++ vs), match same, os with true, [o1; o2] => [term false (os ++ vs); term true ([o2; o1] ++ vs)] | _, _ => [term false (os ++ vs)] end).
Definition u_closed_blocks (n : nat) (act : list bool) : table :=
  map (fun nb => (u_block act nb, u_closed_block act (stored n nb))) (seq 0 (S n)).
Definition u_closed_results : table :=
  u_closed_blocks 1 [Y; Y] ++ u_closed_blocks 2 [Y; Y; Y; Y] ++ u_closed_blocks 2 [Y; N; Y; Y] ++ u_closed_blocks 2 [N; Y; Y; Y] ++
  u_closed_blocks 2 [Y; Y; N; Y] ++ u_closed_blocks 2 [Y; Y; Y; N].

(** ** Statements *)
(** Two functions called for the same system: the results of [q] are those that [Tout] gives in terms of the results of [p]. *)
Definition corrections_agree (B : list (ref * list cls)) (S : symmetries) (Tp : table) (p : prog) (split : cls -> list cls) (Tq : table) (q : prog) (Tout : table) : Prop :=
  forall (F : fld) sz, characteristic_zero F -> splits sz split ->
  forall method1 method2 path1 path2, path_ok path1 -> path_ok path2 ->
  forall eB e1 e2 : env F, symmetric sz S B eB -> called_with sz eB Tp p e1 ->
  args_ok sz (p_in q) e2 -> (forall x cs, In (x, cs) (p_in q) -> given_by sz split Tq eB x cs (tens F (e2 x))) ->
  exists r1 r2, run method1 path1 sz p e1 = Ok r1 /\ run method2 path2 sz q e2 = Ok r2 /\
    forall k x cs, nth_error (p_out q) k = Some (x, cs) -> given_by sz split Tout (results F (p_out p) r1) x cs (entry F r2 k).
(** The amplitudes that UecCC.convert_c3_to_t3 returns (they are [own_unrestricted], C81), or those divided by n_alpha! n_beta! as in
    ext/fci.py lines 313-320; only the block abaaba, the other amplitudes being zero. *)
Definition one_block (amplitudes : table) : table := u_active (named [n_t3'abaaba] amplitudes).
(** (T)_i^a = sum_{jb kc} (jb|kc) t_{i k j}^{a c b}, j, b of spin alpha and k, c of spin beta. *)
Definition singles_formula (c : Z) : formula :=
  [mono c 1 [(nm 0 n_eo'a, [101; 41]); (nm 0 n_ev'a, [111; 51]); (nm 0 n_eo'b, [120; 60]); (nm 0 n_ev'b, [130; 70]); (nm 0 n_v'aabb'ovov, [41; 51; 60; 70]);
             (nm 0 n_t3'abaaba, [100; 120; 101; 110; 130; 111])]].
