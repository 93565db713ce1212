(** Theorems for C47 (antisymmetrised integrals), C48 (Fock blocks) and C55 (chemists' integrals). *)
From Coq Require Import String.
From Coq Require Qcanon.
From Verif Require Import Base Alg ArrModel TensorModel EinsumModel SpaceModel SpaceSpec CcModel CcEx HamModel HamSpec HamProofs HamFock HamEris HamEx.
Local Open Scope string_scope.
Local Open Scope list_scope.
Local Open Scope nat_scope.
Local Open Scope rng_scope.

(** C47: a block of the general integrals holds <pq||rs> = (pr|qs) - (ps|qr) over the spin orbitals of its four spaces. *)
Theorem C47_value : forall (F : fld) (g : geris F) w x y z a1 b1 a2 b2 a3 b3 a4 b4, general_eris g ->
  orbitals_from (ge_space g) w a1 b1 -> orbitals_from (ge_space g) x a2 b2 -> orbitals_from (ge_space g) y a3 b3 -> orbitals_from (ge_space g) z a4 b4 ->
  exists v, geris_get g [w; x; y; z] = Ok v /\ array_of [b1 - a1; b2 - a2; b3 - a3; b4 - a4]%nat v /\
    forall i j k l, (i < b1 - a1)%nat -> (j < b2 - a2)%nat -> (k < b3 - a3)%nat -> (l < b4 - a4)%nat ->
      aget 0 v [i; j; k; l] =
        spin_mulliken (ge_nao g) (ge_ao g) (ge_coeff g) (a1 + i) (a3 + k) (a2 + j) (a4 + l) -
        spin_mulliken (ge_nao g) (ge_ao g) (ge_coeff g) (a1 + i) (a4 + l) (a2 + j) (a3 + k).
Proof. exact geris_block_ok. Qed.
Print Assumptions C47_value.

(** C47: <pq||rs> = -<pq||sr>, whatever the integrals. *)
Theorem C47_ket_antisymmetric : forall (F : fld) (g : geris F) w x y z a1 b1 a2 b2 a3 b3 a4 b4, general_eris g ->
  orbitals_from (ge_space g) w a1 b1 -> orbitals_from (ge_space g) x a2 b2 -> orbitals_from (ge_space g) y a3 b3 -> orbitals_from (ge_space g) z a4 b4 ->
  exists v v', geris_get g [w; x; y; z] = Ok v /\ geris_get g [w; x; z; y] = Ok v' /\
    array_of [b1 - a1; b2 - a2; b3 - a3; b4 - a4]%nat v /\ array_of [b1 - a1; b2 - a2; b4 - a4; b3 - a3]%nat v' /\
    forall i j k l, (i < b1 - a1)%nat -> (j < b2 - a2)%nat -> (k < b3 - a3)%nat -> (l < b4 - a4)%nat -> aget 0 v [i; j; k; l] = - aget 0 v' [i; j; l; k].
Proof. exact ket_antisymmetric. Qed.
Print Assumptions C47_ket_antisymmetric.

(** C47: with 8-fold symmetric integrals, <pq||rs> = -<qp||rs> = <rs||pq>. *)
Theorem C47_bra_antisymmetric : forall (F : fld) (g : geris F) w x y z a1 b1 a2 b2 a3 b3 a4 b4, general_eris g -> eightfold (ge_nao g) (ge_ao g) ->
  orbitals_from (ge_space g) w a1 b1 -> orbitals_from (ge_space g) x a2 b2 -> orbitals_from (ge_space g) y a3 b3 -> orbitals_from (ge_space g) z a4 b4 ->
  exists v v' v'', geris_get g [w; x; y; z] = Ok v /\ geris_get g [x; w; y; z] = Ok v' /\ geris_get g [y; z; w; x] = Ok v'' /\
    array_of [b1 - a1; b2 - a2; b3 - a3; b4 - a4]%nat v /\ array_of [b2 - a2; b1 - a1; b3 - a3; b4 - a4]%nat v' /\ array_of [b3 - a3; b4 - a4; b1 - a1; b2 - a2]%nat v'' /\
    forall i j k l, (i < b1 - a1)%nat -> (j < b2 - a2)%nat -> (k < b3 - a3)%nat -> (l < b4 - a4)%nat ->
      aget 0 v [i; j; k; l] = - aget 0 v' [j; i; k; l] /\ aget 0 v [i; j; k; l] = aget 0 v'' [k; l; i; j].
Proof. exact bra_antisymmetric. Qed.
Print Assumptions C47_bra_antisymmetric.
Example C47_case : general_eris h_geris /\ eightfold (ge_nao h_geris) (ge_ao h_geris) /\ orbitals_from (ge_space h_geris) ch_o 0 2 /\ orbitals_from (ge_space h_geris) ch_v 2 3 /\
  exists v, geris_get h_geris [ch_o; ch_o; ch_o; ch_v] = Ok v /\ Qcanon.Qc_eq_bool (aget 0 v [0; 1; 0; 0]%nat) (q 0) = false.
Proof.
  split; [exact h_general|]. split; [exact h_eightfold|]. split; [exact h_occ|]. split; [exact h_vir|]. eexists. split; vm_compute; reflexivity.
Qed.

(** C48: without the boson shift every block is the transformed Fock matrix, whatever was read before; "p" stands for the atomic orbitals. *)
Theorem C48_value : forall (F : fld) (f : fock F) s C nao h x y k l u v, plain_fock f s C nao -> functions_of s C nao x k u -> functions_of s C nao y l v ->
  exists b, fock_after f h [x; y] = Ok b /\ array_of [k; l] b /\
    forall i j, (i < k)%nat -> (j < l)%nat -> aget 0 b [i; j] = sum nao (fun p => sum nao (fun q => aget 0 (fk_ao f) [p; q] * (u i p * v j q))).
Proof. exact plain_value. Qed.
Print Assumptions C48_value.

(** C48: with the shift, the coupling to the displaced modes is subtracted. *)
Theorem C48_shifted_value : forall (F : fld) (f : fock F) s C nao nb g xi h x y a1 b1 a2 b2, shifted_fock f s C nao nb g xi -> orbitals_from s x a1 b1 -> orbitals_from s y a2 b2 ->
  exists b, fock_after f h [x; y] = Ok b /\ array_of [b1 - a1; b2 - a2]%nat b /\
    forall i j, (i < b1 - a1)%nat -> (j < b2 - a2)%nat -> aget 0 b [i; j] =
      sum nao (fun p => sum nao (fun q => aget 0 (fk_ao f) [p; q] * (aget 0 C [p; a1 + i]%nat * aget 0 C [q; a2 + j]%nat))) -
      sum nb (fun I => aget 0 xi [I] * (aget 0 g [I; a1 + i; a2 + j]%nat + aget 0 g [I; a2 + j; a1 + i]%nat)).
Proof. exact shifted_value. Qed.
Print Assumptions C48_shifted_value.

(** C48: mutually transposed blocks, whatever was read before either of them. *)
Theorem C48_transposed : forall (F : fld) (f : fock F) s C nao h1 h2 x y k l u v, plain_fock f s C nao -> symmetric nao (fk_ao f) ->
  functions_of s C nao x k u -> functions_of s C nao y l v ->
  exists a b, fock_after f h1 [x; y] = Ok a /\ fock_after f h2 [y; x] = Ok b /\ mutual_transposes a b.
Proof. exact plain_transposed. Qed.
Print Assumptions C48_transposed.
Theorem C48_shifted_transposed : forall (F : fld) (f : fock F) s C nao nb g xi h1 h2 x y a1 b1 a2 b2, shifted_fock f s C nao nb g xi -> symmetric nao (fk_ao f) ->
  orbitals_from s x a1 b1 -> orbitals_from s y a2 b2 ->
  exists a b, fock_after f h1 [x; y] = Ok a /\ fock_after f h2 [y; x] = Ok b /\ mutual_transposes a b.
Proof. exact shifted_transposed. Qed.
Print Assumptions C48_shifted_transposed.
Example C48_case : plain_fock (h_fock false) h_space h_coeff 3 /\ shifted_fock (h_fock true) h_space h_coeff 3 2 h_g h_xi /\ symmetric 3 h_ao /\
  orbitals_from h_space ch_o 0 2 /\ orbitals_from h_space ch_v 2 3 /\
  exists a b, fock_after (h_fock true) [ReadG (str "bvo"); ReadF (str "oo")] (str "ov") = Ok a /\ fock_after (h_fock false) [] (str "ov") = Ok b /\
    Qcanon.Qc_eq_bool (aget 0 a [0; 0]%nat) (aget 0 b [0; 0]%nat) = false.
Proof.
  split; [exact h_plain|]. split; [exact h_shifted|]. split; [exact h_symmetric|]. split; [exact h_occ|]. split; [exact h_vir|].
  eexists _, _. split; [vm_compute; reflexivity|]. split; vm_compute; reflexivity.
Qed.

(** C48: without the shift any access, including one that is refused, gives the same after every history. *)
Theorem C48_history : forall (F : fld) (f : fock F) h key, fk_shift f = false -> fock_after f h key = fock_after f [] key.
Proof. exact history_plain. Qed.
Print Assumptions C48_history.
(** C48: with or without the shift, a block that a new container returns is returned after every history.
    Missing: blocks that a new container refuses, see the next theorem. *)
Theorem C48_history_shifted_partial : forall (F : fld) (f : fock F) h key b, fock_after f [] key = Ok b -> fock_after f h key = Ok b.
Proof. exact history_ok. Qed.
Print Assumptions C48_history_shifted_partial.
(** With the shift, a block in the atomic-orbital basis is refused once; the second request returns the unshifted block. *)
Theorem C48_history_refuted : exists (f : fock Qc_fld) s C nao nb g xi key b, shifted_fock f s C nao nb g xi /\
  fock_after f [] key = Err NotImplementedError /\ fock_after f [ReadF key] key = Ok b /\
  fock_after (@mkfock Qc_fld (fk_ao f) (fk_spaces f) (fk_coeffs f) (fk_g f) false (fk_xi f)) [] key = Ok b.
Proof.
  eexists (h_fock true), h_space, h_coeff, 3%nat, 2%nat, h_g, h_xi, (str "pp"), _. split; [exact h_shifted|].
  split; [vm_compute; reflexivity|]. split; vm_compute; reflexivity.
Qed.
Print Assumptions C48_history_refuted.
(** C48: the same for the electron-boson coupling blocks. *)
Theorem C48_coupling_history : forall (F : fld) (f : fock F) e h key, fk_g f = Some e -> g_after f e h key = g_after f e [] key.
Proof. exact history_g. Qed.
Print Assumptions C48_coupling_history.
Example C48_history_case : exists b, fock_after (h_fock true) [] (str "oo") = Ok b /\ fk_g (h_fock true) <> None /\
  length (fst (access_run (h_fock true) [ReadF (str "pp"); ReadG (str "bxx"); ReadF (str "ov"); ReadF (str "?")])) = 2%nat.
Proof. eexists. split; [vm_compute; reflexivity|]. split; [discriminate|vm_compute; reflexivity]. Qed.

(** C48, unrestricted: values, transposition and histories of both spin components. *)
Theorem C48_unrestricted_value : forall (F : fld) (u : ufock F) h spin i nao x y k l v w, spin_key spin i -> u_plain u i nao ->
  functions_of (pick (uf_space u) i) (pick (uf_coeff u) i) nao x k v -> functions_of (pick (uf_space u) i) (pick (uf_coeff u) i) nao y l w ->
  exists b, u_fock_after u h spin [x; y] = Ok b /\ array_of [k; l] b /\
    forall a c, (a < k)%nat -> (c < l)%nat -> aget 0 b [a; c] = sum nao (fun p => sum nao (fun q => aget 0 (pick (uf_ao u) i) [p; q] * (v a p * w c q))).
Proof. exact u_plain_value. Qed.
Print Assumptions C48_unrestricted_value.
Theorem C48_unrestricted_shifted_value : forall (F : fld) (u : ufock F) h spin i nao nb w xi x y a1 b1 a2 b2, spin_key spin i -> u_shifted u i nao nb w xi ->
  orbitals_from (pick (uf_space u) i) x a1 b1 -> orbitals_from (pick (uf_space u) i) y a2 b2 ->
  exists b, u_fock_after u h spin [x; y] = Ok b /\ array_of [b1 - a1; b2 - a2]%nat b /\
    forall c d, (c < b1 - a1)%nat -> (d < b2 - a2)%nat -> aget 0 b [c; d] =
      sum nao (fun p => sum nao (fun q => aget 0 (pick (uf_ao u) i) [p; q] *
        (aget 0 (pick (uf_coeff u) i) [p; a1 + c]%nat * aget 0 (pick (uf_coeff u) i) [q; a2 + d]%nat))) -
      sum nb (fun I => aget 0 xi [I] * (w I (a1 + c)%nat (a2 + d)%nat + w I (a2 + d)%nat (a1 + c)%nat)).
Proof. exact u_shifted_value. Qed.
Print Assumptions C48_unrestricted_shifted_value.
Theorem C48_unrestricted_transposed : forall (F : fld) (u : ufock F) h1 h2 spin i nao x y k l v w, spin_key spin i -> u_plain u i nao -> symmetric nao (pick (uf_ao u) i) ->
  functions_of (pick (uf_space u) i) (pick (uf_coeff u) i) nao x k v -> functions_of (pick (uf_space u) i) (pick (uf_coeff u) i) nao y l w ->
  exists a b, u_fock_after u h1 spin [x; y] = Ok a /\ u_fock_after u h2 spin [y; x] = Ok b /\ mutual_transposes a b.
Proof. exact u_plain_transposed. Qed.
Print Assumptions C48_unrestricted_transposed.
Theorem C48_unrestricted_shifted_transposed : forall (F : fld) (u : ufock F) h1 h2 spin i nao nb w xi x y a1 b1 a2 b2, spin_key spin i -> u_shifted u i nao nb w xi ->
  symmetric nao (pick (uf_ao u) i) -> orbitals_from (pick (uf_space u) i) x a1 b1 -> orbitals_from (pick (uf_space u) i) y a2 b2 ->
  exists a b, u_fock_after u h1 spin [x; y] = Ok a /\ u_fock_after u h2 spin [y; x] = Ok b /\ mutual_transposes a b.
Proof. exact u_shifted_transposed. Qed.
Print Assumptions C48_unrestricted_shifted_transposed.
Theorem C48_unrestricted_history : forall (F : fld) (u : ufock F) h spin key, uf_shift u = false -> u_fock_after u h spin key = u_fock_after u [] spin key.
Proof. exact u_history_plain. Qed.
Print Assumptions C48_unrestricted_history.
Theorem C48_unrestricted_history_shifted_partial : forall (F : fld) (u : ufock F) h spin key b, u_fock_after u [] spin key = Ok b -> u_fock_after u h spin key = Ok b.
Proof. exact u_history. Qed.
Print Assumptions C48_unrestricted_history_shifted_partial.
Example C48_unrestricted_case : spin_key (str "aa") 0%nat /\ u_plain (h_ufock false) 0 3 /\
  u_shifted (h_ufock true) 0 3 2 (fun I p r => aget 0 h_gu [0%nat; I; p; r]) h_xi /\ symmetric 3 (pick (uf_ao (h_ufock true)) 0%nat) /\
  exists b, u_fock_after (h_ufock true) [(str "bb", ReadF (str "vo")); (str "aa", ReadG (str "bvv"))] (str "bb") (str "ov") = Ok b /\ shp b = [1; 2]%nat.
Proof.
  split; [left; split; reflexivity|]. split; [exact h_u_plain|]. split; [exact h_u_shifted|]. split; [exact h_symmetric|].
  eexists. split; [vm_compute; reflexivity|]. reflexivity.
Qed.

(** C55: a block of the restricted integrals is the four-index transformation of its spaces, after every history. *)
Theorem C55_value : forall (F : fld) (e : reris F) s1 s2 s3 s4 c1 c2 c3 c4 nao h w x y z k1 k2 k3 k4 f1 f2 f3 f4,
  plain_eris e [s1; s2; s3; s4] [c1; c2; c3; c4] nao ->
  functions_of s1 c1 nao w k1 f1 -> functions_of s2 c2 nao x k2 f2 -> functions_of s3 c3 nao y k3 f3 -> functions_of s4 c4 nao z k4 f4 ->
  exists v, reris_after e h [w; x; y; z] = Ok v /\ array_of [k1; k2; k3; k4] v /\
    forall i j k l, (i < k1)%nat -> (j < k2)%nat -> (k < k3)%nat -> (l < k4)%nat ->
      aget 0 v [i; j; k; l] = mulliken nao (er_ao e) (f1 i) (f2 j) (f3 k) (f4 l).
Proof. exact reris_value. Qed.
Print Assumptions C55_value.
Theorem C55_history : forall (F : fld) (e : reris F) h key, reris_after e h key = reris_after e [] key.
Proof. exact reris_history. Qed.
Print Assumptions C55_history.
(** C55: with 8-fold symmetric atomic-orbital integrals, (wx|yz) = (xw|yz) = (wx|zy) = (yz|wx) between the blocks. *)
Theorem C55_symmetric : forall (F : fld) (e : reris F) s C nao h1 h2 h3 h4 w x y z k1 k2 k3 k4 f1 f2 f3 f4,
  plain_eris e [s; s; s; s] [C; C; C; C] nao -> eightfold nao (er_ao e) ->
  functions_of s C nao w k1 f1 -> functions_of s C nao x k2 f2 -> functions_of s C nao y k3 f3 -> functions_of s C nao z k4 f4 ->
  exists v a b c, reris_after e h1 [w; x; y; z] = Ok v /\ reris_after e h2 [x; w; y; z] = Ok a /\ reris_after e h3 [w; x; z; y] = Ok b /\ reris_after e h4 [y; z; w; x] = Ok c /\
    array_of [k1; k2; k3; k4] v /\ array_of [k2; k1; k3; k4] a /\ array_of [k1; k2; k4; k3] b /\ array_of [k3; k4; k1; k2] c /\
    forall i j k l, (i < k1)%nat -> (j < k2)%nat -> (k < k3)%nat -> (l < k4)%nat ->
      aget 0 v [i; j; k; l] = aget 0 a [j; i; k; l] /\ aget 0 v [i; j; k; l] = aget 0 b [i; j; l; k] /\ aget 0 v [i; j; k; l] = aget 0 c [k; l; i; j].
Proof. exact reris_symmetric. Qed.
Print Assumptions C55_symmetric.
(** C55, unrestricted: the spins of the bra and of the ket choose their orbitals, and the mixed-spin blocks are exchanges of each other. *)
Theorem C55_unrestricted : forall (F : fld) (u : ueris F) nao h1 h2 w x y z i j s t k1 k2 k3 k4 f1 f2 f3 f4 e e',
  array_of [nao; nao; nao; nao] (ue_ao u) -> eightfold nao (ue_ao u) ->
  orbital_basis (pick (ue_space u) i) (pick (ue_coeff u) i) nao -> orbital_basis (pick (ue_space u) j) (pick (ue_coeff u) j) nao ->
  spin_key [s; s] i -> spin_key [t; t] j -> ueris_part u [s; s; t; t] = Ok e -> ueris_part u [t; t; s; s] = Ok e' ->
  functions_of (pick (ue_space u) i) (pick (ue_coeff u) i) nao w k1 f1 -> functions_of (pick (ue_space u) i) (pick (ue_coeff u) i) nao x k2 f2 ->
  functions_of (pick (ue_space u) j) (pick (ue_coeff u) j) nao y k3 f3 -> functions_of (pick (ue_space u) j) (pick (ue_coeff u) j) nao z k4 f4 ->
  exists v v', reris_after e h1 [w; x; y; z] = Ok v /\ reris_after e' h2 [y; z; w; x] = Ok v' /\ array_of [k1; k2; k3; k4] v /\ array_of [k3; k4; k1; k2] v' /\
    forall a b c d, (a < k1)%nat -> (b < k2)%nat -> (c < k3)%nat -> (d < k4)%nat ->
      aget 0 v [a; b; c; d] = mulliken nao (ue_ao u) (f1 a) (f2 b) (f3 c) (f4 d) /\ aget 0 v [a; b; c; d] = aget 0 v' [c; d; a; b].
Proof. exact ueris_exchange. Qed.
Print Assumptions C55_unrestricted.
(** C55: density-fitted blocks do not depend on the history and equal the exact transformation of the fitted integrals. *)
Theorem C55_fitted : forall (F : fld) (c : cderis F) ss cs naux eri h h' w x y z k1 k2 k3 k4 f1 f2 f3 f4 s1 s2 s3 s4 c1 c2 c3 c4,
  ss = [s1; s2; s3; s4] -> cs = [c1; c2; c3; c4] -> plain_cderis c ss cs naux -> fitted c naux eri ->
  functions_of s1 c1 (cd_nao c) w k1 f1 -> functions_of s2 c2 (cd_nao c) x k2 f2 -> functions_of s3 c3 (cd_nao c) y k3 f3 -> functions_of s4 c4 (cd_nao c) z k4 f4 ->
  exists v, cderis_after c h [w; x; y; z] false = Ok v /\ reris_after (@mkreris F eri ss cs) h' [w; x; y; z] = Ok v.
Proof. exact fitted_is_exact. Qed.
Print Assumptions C55_fitted.
Theorem C55_fitted_history : forall (F : fld) (c : cderis F) h key e2, cderis_after c h key e2 = cderis_after c [] key e2.
Proof. exact cderis_history. Qed.
Print Assumptions C55_fitted_history.
Example C55_case : plain_eris (@mkreris Qc_fld h_eri [h_space; h_space; h_space; h_space] [h_coeff; h_coeff; h_coeff; h_coeff])
    [h_space; h_space; h_space; h_space] [h_coeff; h_coeff; h_coeff; h_coeff] 3 /\ eightfold 3 h_eri /\
  plain_cderis h_cd [h_space; h_space; h_space; h_space] [h_coeff; h_coeff; h_coeff; h_coeff] 1 /\ fitted h_cd 1 h_eri /\
  (exists k u, functions_of h_space h_coeff 3 ch_o k u /\ k = 2%nat) /\ (exists k u, functions_of h_space h_coeff 3 ch_p k u /\ k = 3%nat) /\
  exists v, cderis_after h_cd [(str "Qov", true); (str "oovv", false)] (str "ovop") false = Ok v /\ shp v = [2; 1; 2; 3]%nat.
Proof.
  split; [exact h_eris|]. split; [exact h_eightfold|]. split; [exact h_cd_plain|]. split; [exact h_fitted|].
  split; [eexists _, _; split; [exact (@mo_functions Qc_fld _ h_coeff 3 _ _ _ h_occ)|reflexivity]|].
  split; [eexists _, (fun i mu => if (i =? mu)%nat then 1 else 0); split; [left; split; [reflexivity|split; [reflexivity|reflexivity]]|reflexivity]|].
  eexists. split; [vm_compute; reflexivity|]. reflexivity.
Qed.
