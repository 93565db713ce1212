(** Property theorems for namespaces and elapsed times (C15, C16). *)
From Coq Require Import QArith Qround String.
From Verif Require Import Base MiscModel MiscSpec MiscProofs.
Local Open Scope string_scope.
Local Open Scope list_scope.
Local Open Scope nat_scope.

(** C15: for every program over any number of namespaces, every answer is the answer of an
    insertion-ordered dictionary; attribute reads of class names give the class attribute. *)
Theorem C15_namespace_is_dictionary : forall (V : Type) (veqb : V -> V -> bool) class_names (program : list (op V)),
  sruns veqb class_names [] program (run veqb class_names [] program).
Proof. exact namespace_is_dict. Qed.
Print Assumptions C15_namespace_is_dictionary.

Example C15_case : run Nat.eqb public_names []
  [New [(str "t1", 1); (str "t2", 2)]; SetAttr 0 (str "t3") 3; DelItem 0 (str "t1"); Copy 0; SetItem 1 (str "t1") 9;
   Keys 0; Keys 1; GetAttr 0 (str "t3"); GetAttr 0 (str "t1"); DelAttr 0 (str "zz"); Equal 0 1; GetAttr 1 (str "items")]
  = [RObj 0; RNone; RNone; RObj 1; RNone; RKeys [str "t2"; str "t3"]; RKeys [str "t2"; str "t3"; str "t1"];
     RVal 3; RErr AttributeError; RErr KeyError; RBool false; RBuiltin (str "items")].
Proof. vm_compute. reflexivity. Qed.

(** C15: a value stored under a method name cannot be read back as an attribute. *)
Theorem C15_attribute_round_trip_refuted : exists k v, run Nat.eqb public_names []
  [New []; SetAttr 0 k v; GetAttr 0 k; GetItem 0 k] = [RObj 0; RNone; RBuiltin k; RVal v].
Proof. exists (str "items"), 5. vm_compute. reflexivity. Qed.
Print Assumptions C15_attribute_round_trip_refuted.

(** C15: [popitem] removes the oldest entry, where a dictionary removes the newest. *)
Theorem C15_popitem_newest_refuted : exists a b va vb, a <> b /\ run Nat.eqb public_names []
  [New [(a, va); (b, vb)]; Popitem 0; Keys 0] = [RObj 0; RPair a va; RKeys [b]].
Proof. exists (str "a"), (str "b"), 1, 2. split; [discriminate|]. vm_compute. reflexivity. Qed.
Print Assumptions C15_popitem_newest_refuted.

(** C16: for every duration and precision, the units shown add up to the duration in whole milliseconds,
    and each is below the next larger unit.  Missing: the number of units is not limited by the
    precision (next theorem). *)
Theorem C16_units_recompose_partial : forall s p, (0 <= s)%Q ->
  total_ms (format_time s p) = Qfloor (s * 1000) /\ Forall in_range (format_time s p).
Proof. exact (fun s p H => eq_ind_r (fun l => total_ms l = Qfloor (s * 1000) /\ Forall in_range l) (format_pieces_total H) (format_time_all s p)). Qed.
Print Assumptions C16_units_recompose_partial.

Example C16_case : format_time (7384 + (1#4)) 2 = [(2, Hour); (3, Minute); (4, Second); (250, Millisecond)]%Z.
Proof. vm_compute. reflexivity. Qed.

(** C16: the precision has no effect for any duration, so more than [p] units can be shown. *)
Theorem C16_precision_limits_units_refuted : exists s p, (0 <= s)%Q /\ p < length (format_time s p).
Proof. exists (7384 + (1#4))%Q, 2. split; [unfold Qle; cbn; lia|vm_compute; lia]. Qed.
Print Assumptions C16_precision_limits_units_refuted.
Theorem C16_precision_ignored : forall s p p', format_time s p = format_time s p'.
Proof. exact (fun s p p' => eq_trans (format_time_all s p) (eq_sym (format_time_all s p'))). Qed.
Print Assumptions C16_precision_ignored.
