(** Concrete instance for the examples on contexts, options and files. *)
From Coq Require Import String.
From Verif Require Import Base SpaceModel AnsatzModel CoreModel CoreSpec.
Local Open Scope string_scope.
Local Open Scope list_scope.
Local Open Scope nat_scope.

(** Numbers and arrays are naturals, the class of the mean field is a natural (0: plain), molecules are naturals; files
    list their members backwards. *)
Definition backwards (A : Type) (d : dict pystr A) : dict pystr A := rev d.
Definition hf0 (_ : spin_type) : nat := 0.
Definition enc (m : nat) : pyv nat := PNat m.
Definition dec (v : pyv nat) : result nat := match v with PNat n => Ok n | _ => Err TypeError end.
Definition modules : list pystr := map str ["RCCSD"; "RDFCCSD"; "UCCSD_SD_1_1"; "custom"].
Definition known (s : pystr) : bool := existsb (streqb s) modules.
(** Derived quantities: the shift option that was in force. *)
Definition derive0 (t : spin_type) (mf : mfobj nat nat nat) (a : ansatz) (sp : spaces) (w g G : option nat) (c o : nat) (shift : pyv nat) : result (pyv nat) := Ok shift.
Definition defaults0 : dict pystr (pyv nat) := [(str "e_tol", POther 8); (str "max_iter", PNat 200); (str "shift", PBool true)].
Definition construct0 := construct known (fun w => w) derive0 0.
Definition write0 := @write nat backwards nat (pyv nat) nat enc.
Definition read0 := @read nat nat (pyv nat) nat hf0 dec known (fun w => w) derive0 0 defaults0.

Definition mf0 : mfobj nat nat nat := mkmf 3 10 11 12 13 0.
Definition sp0 : space := {| sp_occupied := [true; true; false]; sp_frozen := [true; false; false]; sp_active := [false; false; true] |}.
Definition ccsd : xansatz nat := mkxa (str "CCSD") [] 0 0 (PBool false) None.
Definition ebccsd : xansatz nat := mkxa (str "CCSD") (str "SD") 1 1 (PBool false) None.
(** Amplitudes of an unrestricted calculation with bosons. *)
Definition amps0 : amps nat := [(str "t1", ASpin [(str "aa", 21); (str "bb", 22)]); (str "s1", AArr 23)].

(** Objects whose reading goes wrong, written to an empty file. *)
Definition reread (x : xansatz nat) (kw : dict pystr (pyv nat)) : result (obj nat nat (pyv nat) nat * obj nat nat (pyv nat) nat) :=
  (o <- construct0 SR mf0 x (oset defaults0 kw) (One sp0) None None None 1 2 ;; f <- write0 [] o ;; o' <- read0 f ;; Ok (o, o'))%py.
