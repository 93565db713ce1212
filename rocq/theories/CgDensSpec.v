(** Density matrices: what their generated functions have to satisfy. *)
From Coq Require Import List ZArith String.
From Verif Require Import Base Alg ArrModel EinsumModel CgModel CgSpec CgFormSpec CgNames CgTables CgTables2 CgRelSpec CgPairs CgDensTables.
Import ListNotations.
Local Open Scope list_scope. Local Open Scope nat_scope.

(** Several functions are called with the arguments that the table [T] gives for the same given tensors. *)
Definition all_called {F : fld} sz (eB : env F) (T : table) (ps : list prog) (es : list (env F)) : Prop := Forall2 (called_with sz eB T) ps es.
Definition all_return {F : fld} method path sz (ps : list prog) (es : list (env F)) (rs : list (list (arr F))) : Prop :=
  Forall2 (fun pe r => run method path sz (fst pe) (snd pe) = Ok r) (combine ps es) rs.
(** The given tensors, [nm 0], and the results of the calls, [nm 1], [nm 2], ... *)
Definition given_and_results {F : fld} (eB : env F) (ps : list prog) (rs : list (list (arr F))) : env F :=
  together (eB :: map (fun pr => results F (p_out (fst pr)) (snd pr)) (combine ps rs)).

(** ** Energies *)
(** The functions make_rdm1_f, make_rdm2_f, energy, update_amps (and make_sing_b_dm, make_rdm1_b, make_eb_coup_rdm) are called.
    Contracting the Hamiltonian with the density matrices, [trace_H], gives the energy of the reference and the correlation energy, [energy],
    plus the inner product of the multipliers with the residuals, [residual]; and without the latter if the amplitude equations
    are solved, that is if all results of update_amps are zero. *)
Definition energy_of_densities (B : list (ref * list cls)) (S : symmetries) (T : table) (ps : list prog) (trace_H energy residual : formula) : Prop :=
  forall (F : fld) sz, characteristic_zero F -> forall method path, path_ok path ->
  forall eB : env F, symmetric sz S B eB ->
  forall es, all_called sz eB T ps es ->
  exists rs, all_return method path sz ps es rs /\
    let all := given_and_results eB ps rs in
    value sz all [] trace_H [] = radd (value sz all [] energy []) (value sz all [] residual []) /\
    ((forall x idx, tens F (all (nm 4 x)) idx = r0) -> value sz all [] trace_H [] = value sz all [] energy []).

(** ** Numbers of electrons *)
Definition electrons (F : fld) sz (f : factor) : F :=
  match f with (c, k, d) => radd (rmul (coef F c 1) (rnat (sz k))) (coef F d 1) end.
(** The functions make_rdm1_f and make_rdm2_f are called; traces and partial traces of the density matrices are as they should be. *)
Definition traces_hold (B : list (ref * list cls)) (S : symmetries) (T : table) (p1 p2 : prog) (l : list (list nat * formula * factor * formula)) : Prop :=
  forall (F : fld) sz, characteristic_zero F -> forall method path, path_ok path ->
  forall eB : env F, symmetric sz S B eB ->
  forall e1 e2, called_with sz eB T p1 e1 -> called_with sz eB T p2 e2 ->
  exists r1 r2, run method path sz p1 e1 = Ok r1 /\ run method path sz p2 e2 = Ok r2 /\
    let all := together [eB; results F (p_out p1) r1; results F (p_out p2) r2] in
    forall out lhs f g, In (out, lhs, f, g) l -> forall idx, inb (map sz (map kind out)) idx ->
      value sz all out lhs idx = rmul (electrons F sz f) (value sz all out g idx).

(** ** Symmetries *)
(** Every result is what the table [Tout] gives in terms of all the results. *)
Definition own_symmetry (B : list (ref * list cls)) (S : symmetries) (T : table) (p : prog) (Tout : table) : Prop :=
  forall (F : fld) sz, characteristic_zero F -> forall method path, path_ok path ->
  forall eB : env F, symmetric sz S B eB ->
  forall e, called_with sz eB T p e ->
  exists r, run method path sz p e = Ok r /\
    forall k x cs, nth_error (p_out p) k = Some (x, cs) -> given_by sz id_blocks Tout (results F (p_out p) r) x cs (entry F r k).

(** ** Restricted, unrestricted and general calculations *)
(** Closed shells: there are as many orbitals of either spin as there are spatial orbitals. *)
Definition closed (c : cls) : cls := match c with 4 | 6 => 0 | 5 | 7 => 1 | _ => c end.
(** A restricted function and the unrestricted one, called for the same closed-shell system (tables [restricted] and
    [closed_shell]): the results of the former are those given by [Tout] in terms of the results of the latter, [nm 1]. *)
Definition restricted_densities (q u : prog) (Tout : table) : Prop :=
  forall (F : fld) sz, characteristic_zero F -> forall method1 method2 path1 path2, path_ok path1 -> path_ok path2 ->
  forall eB : env F, symmetric sz spatial_symmetries spatial eB ->
  forall e1 e2, called_with sz eB restricted q e1 ->
  args_ok (fun c => sz (closed c)) (p_in u) e2 -> (forall x cs, In (x, cs) (p_in u) -> given_by sz id_blocks closed_shell eB x (map closed cs) (tens F (e2 x))) ->
  exists r1 r2, run method1 path1 sz q e1 = Ok r1 /\ run method2 path2 (fun c => sz (closed c)) u e2 = Ok r2 /\
    forall k x cs, nth_error (p_out q) k = Some (x, cs) -> given_by sz id_blocks Tout (together [eB; results F (p_out u) r2]) x cs (entry F r1 k).
(** An unrestricted function and the general one, called for the same system (tables [unrestricted] and [spin_orbital]; the
    general orbitals are the alpha ones followed by the beta ones): the blocks of the results of the latter are those given by [Tout]
    in terms of the results of the former. *)
Definition general_densities (u g : prog) (Tout : table) : Prop :=
  forall (F : fld) sz, characteristic_zero F -> splits sz spin_split -> forall method1 method2 path1 path2, path_ok path1 -> path_ok path2 ->
  forall eB : env F, symmetric sz spin_blocks_symmetries spin_blocks eB ->
  forall e1 e2, called_with sz eB unrestricted u e1 ->
  args_ok sz (p_in g) e2 -> (forall x cs, In (x, cs) (p_in g) -> given_by sz spin_split spin_orbital eB x cs (tens F (e2 x))) ->
  exists r1 r2, run method1 path1 sz u e1 = Ok r1 /\ run method2 path2 sz g e2 = Ok r2 /\
    forall k x cs, nth_error (p_out g) k = Some (x, cs) -> given_by sz spin_split Tout (results F (p_out u) r1) x cs (entry F r2 k).
