(** Model of ebcc/core/precision.py, of the options handling of the constructors (ebcc/cc/base.py, ebcc/eom/base.py,
    ebcc/opt/base.py, ebcc/ext/eccc.py, ebcc/ext/tcc.py) and of ebcc/core/dump.py. *)
From Coq Require Import String.
From Verif Require Import Base SpaceModel AnsatzModel.
Set Implicit Arguments.
Local Open Scope string_scope.
Local Open Scope list_scope.
Local Open Scope nat_scope.
Local Open Scope py_scope.

(** * Precision *)
Section Precision.
  Variable T : Type.
  (** [types[float]], [types[complex]] (precision.py:20-31) *)
  Definition ptypes := (T * T)%type.
  (** The keyword arguments [float] and [complex]; others are ignored by [kwargs.get]. *)
  Definition pkw := (option T * option T)%type.
  (** precision.py:52-60 *)
  Definition given (x : option T) (old : T) : T := match x with Some t => t | None => old end.
  Definition set_precision (k : pkw) (s : ptypes) : ptypes := (given (fst k) (fst s), given (snd k) (snd s)).

  (** Programs that use the module: observing the types in force, setting them, entering a context, raising an
      exception, catching any exception. *)
  Inductive prog :=
  | PDone
  | PObserve (rest : prog)
  | PSet (k : pkw) (rest : prog)
  | PWith (k : pkw) (body rest : prog)
  | PRaise
  | PTry (body handler rest : prog).

  (** [run p s]: the types observed, the types at the end, and whether the program ended without an exception.
      precision.py:63-76 [precision] (and 79-83 [single_precision], which is [precision] with two fixed types):
      an exception in the body is raised at the [yield], so the line after it is not executed. *)
  Fixpoint prun (p : prog) (s : ptypes) : list ptypes * ptypes * bool :=
    match p with
    | PDone => ([], s, true)
    | PObserve rest => let '(o, s', ok) := prun rest s in (s :: o, s', ok)
    | PSet k rest => prun rest (set_precision k s)
    | PWith k body rest =>
        let old := (Some (fst s), Some (snd s)) in
        let '(o1, s1, ok1) := prun body (set_precision k s) in
        if ok1 then let '(o2, s2, ok2) := prun rest (set_precision old s1) in (o1 ++ o2, s2, ok2)
        else (o1, s1, false)
    | PRaise => ([], s, false)
    | PTry body handler rest =>
        let '(o1, s1, ok1) := prun body s in
        if ok1 then let '(o2, s2, ok2) := prun rest s1 in (o1 ++ o2, s2, ok2)
        else let '(o2, s2, ok2) := prun handler s1 in
             if ok2 then let '(o3, s3, ok3) := prun rest s2 in (o1 ++ o2 ++ o3, s3, ok3)
             else (o1 ++ o2, s2, false)
    end.
End Precision.
Arguments PDone {T}. Arguments PRaise {T}.

(** * Options objects and calculations *)
Section Options.
  Variable V : Type.
  Variable vfalse : V.
  (** An options object is its [__dict__]. *)
  Definition opts := dict pystr V.
  Definition oset (o : opts) (kw : list (pystr * V)) : opts := fold_left (fun d p => dset pystr_eq_dec (fst p) (snd p) d) kw o.
  Definition k_shift : pystr := str "shift".

  (** A calculation holds a reference to its options object and knows whether its ansatz has bosons. *)
  Record calc := mkcalc { c_ref : nat; c_bosons : bool }.
  Record world := mkworld { w_objs : list opts; w_calcs : list calc }.
  Definition world0 : world := mkworld [] [].
  (** The options a calculation reads. *)
  Definition options_of (w : world) (c : calc) : option opts := nth_error (w_objs w) (c_ref c).

  Fixpoint update_nth {A} (i : nat) (f : A -> A) (l : list A) : list A :=
    match l, i with [], _ => [] | x :: l', 0 => f x :: l' | x :: l', S i' => x :: update_nth i' f l' end.

  (** cc/base.py:132-137 and 174-181 (no bosons: [options.shift = False]); the other constructors
      (eom/base.py:81-86, opt/base.py:78-83, ext/eccc.py:87-92, ext/tcc.py:79-84) are the case with [bosons = true], where
      nothing but the keyword arguments is written.  [defaults] is the [__dict__] of [self.Options()]. *)
  Definition construct_opts (defaults : opts) (given : option nat) (kw : list (pystr * V)) (bosons : bool) (w : world) : world :=
    let (objs, r) := match given with None => (w_objs w ++ [defaults], length (w_objs w)) | Some r => (w_objs w, r) end in
    let objs := update_nth r (fun o => oset o kw) objs in
    let objs := if bosons then objs else update_nth r (fun o => dset pystr_eq_dec k_shift vfalse o) objs in
    mkworld objs (w_calcs w ++ [mkcalc r bosons]).

  (** What a program does with options: create an options object; construct a calculation; convert a calculation
      (cc/uebcc.py:117-126 [from_rebcc], cc/gebcc.py:154-163 [from_uebcc], and opt/base.py:169-181, which passes on
      [cc.options]). *)
  Inductive oevent :=
  | NewOptions (o : opts)
  | Construct (given : option nat) (kw : list (pystr * V)) (bosons : bool)
  | Convert (c : nat).
  Definition ostep (defaults : opts) (w : world) (e : oevent) : world :=
    match e with
    | NewOptions o => mkworld (w_objs w ++ [o]) (w_calcs w)
    | Construct given kw bosons => construct_opts defaults given kw bosons w
    | Convert c => match nth_error (w_calcs w) c with
                   | None => w
                   | Some x => construct_opts defaults (Some (c_ref x)) [] (c_bosons x) w end
    end.
  Definition orun (defaults : opts) (h : list oevent) : world := fold_left (ostep defaults) h world0.
End Options.
Arguments world0 {V}. Arguments Convert {V}.

(** * Files *)
Section Dump.
  Variable V : Type.
  (** The order in which [h5py] lists the members of a group (any order). *)
  Variable reorder : forall A : Type, dict pystr A -> dict pystr A.

  (** Values that are written: [POther] stands for numbers and arrays, which [h5py] stores faithfully. *)
  Inductive pyv := PNone | PStr (s : pystr) | PBytes (s : pystr) | PNat (n : nat) | PBool (b : bool) | PMask (m : list bool) | POther (v : V)
    | PPair (a b : pyv) | PDict (d : list (pystr * pyv)).

  (** pyscf.lib.chkfile: what [load] gives for a value written by [dump].  Strings come back as bytes, dictionaries with
      the members in the order of the file; [None] cannot be stored. *)
  Fixpoint stored (v : pyv) : result pyv :=
    match v with
    | PNone => Err TypeError
    | PStr s => Ok (PBytes s)
    | PPair a b => a' <- stored a ;; b' <- stored b ;; Ok (PPair a' b')
    | PDict d =>
        d' <- (fix go (l : list (pystr * pyv)) : result (list (pystr * pyv)) :=
                 match l with
                 | [] => Ok []
                 | (k, x) :: l' => x' <- stored x ;; r <- go l' ;; Ok ((k, x') :: r)
                 end) d ;;
        Ok (PDict (@reorder pyv d'))
    | _ => Ok v
    end.
  (** The file: what loading each key gives. *)
  Definition file := dict pystr pyv.
  (** pyscf.lib.chkfile [dump]: an existing entry is replaced. *)
  Definition dump (f : file) (key : pystr) (v : pyv) : result file :=
    v' <- stored v ;; Ok (dset pystr_eq_dec key v' f).
  (** pyscf.lib.chkfile [load]: [None] if there is no such key. *)
  Definition load (f : file) (key : pystr) : pyv := match dget pystr_eq_dec key f with Some v => v | None => PNone end.

  Definition as_dict (v : pyv) : result (dict pystr pyv) := match v with PDict d => Ok d | _ => Err AttributeError end.
  (** [dic.get(key, default)] *)
  Definition get_or (d : dict pystr pyv) (key : pystr) (default : pyv) : pyv :=
    match dget pystr_eq_dec key d with Some v => v | None => default end.
  (** [x.decode("ascii")] *)
  Definition decode (v : pyv) : result pystr :=
    match v with
    | PBytes s => if forallb (fun c => c <? 128) s then Ok s else Err ValueError
    | _ => Err AttributeError
    end.
  Definition as_nat (v : pyv) : result nat := match v with PNat n => Ok n | _ => Err TypeError end.
  Definition as_mask (v : pyv) : result mask := match v with PMask m => Ok m | _ => Err TypeError end.
  (** [v[0]], [v[1]] *)
  Definition part (i : nat) (v : pyv) : result pyv := match v with PPair a b => Ok (if i =? 0 then a else b) | _ => Err TypeError end.
  Definition truthy (v : pyv) : bool :=
    match v with PNone => false | PStr [] | PBytes [] => false | PNat 0 => false | PBool b => b | _ => true end.

  (** The ansatz with the two attributes that AnsatzModel leaves out or fixes (ansatz.py:96-120). *)
  Record xansatz := mkxa { xa_fermion : pystr; xa_boson : pystr; xa_frank : nat; xa_brank : nat; xa_df : pyv; xa_module : option pystr }.
  Definition plain (x : xansatz) : ansatz := mka (xa_fermion x) (xa_boson x) (xa_frank x) (xa_brank x) (truthy (xa_df x)).

  Inductive spin_type := SR | SG | SU.
  Definition spin_letter (t : spin_type) : pystr := match t with SR => str "R" | SG => str "G" | SU => str "U" end.
  (** ansatz.py:122-128 [_get_eqns]: the module imported *)
  Definition module_of (t : spin_type) (x : xansatz) : pystr :=
    match xa_module x with None => (spin_letter t ++ name_to_identifier (ansatz_name (plain x)))%list | Some m => m end.

  Inductive spaces := One (s : space) | Two (a b : space).
  Inductive aval := AArr (v : V) | ASpin (d : dict pystr V).
  Definition amps := dict pystr aval.

  (** The mean-field object: the molecule, the four attributes that are written, and everything else (its class,
      density fitting, ...). *)
  Variables (M D R : Type).
  Record mfobj := mkmf { mf_mol : M; mf_e_tot : V; mf_mo_energy : V; mf_mo_coeff : V; mf_mo_occ : V; mf_rest : R }.
  (** A plain Hartree-Fock object of each spin type ([scf.RHF(mol)] and so on). *)
  Variable plain_hf : spin_type -> R.
  (** Molecules are stored by [dump_mol] under a key of its own (trusted: reading gives the molecule back). *)
  Variables (enc_mol : M -> pyv) (dec_mol : pyv -> result M).

  Record obj := mkobj {
    o_spin : spin_type; o_options : dict pystr pyv; o_mf : mfobj; o_mo_coeff : V; o_mo_occ : V; o_ansatz : xansatz; o_space : spaces;
    o_omega : option V; o_g : option V; o_G : option V;
    o_derived : D;                 (* the coupling container, the boson drive, the Fock container *)
    o_e_corr : pyv; o_converged : pyv; o_converged_lambda : pyv;
    o_amplitudes : option amps; o_lambdas : option amps }.

  Variable importable : pystr -> bool.
  Variable nmodes : V -> nat.
  (** [get_g], [get_mean_field_G], [get_fock] (cc/base.py:174-187): any function of what they read. *)
  Variable derive : spin_type -> mfobj -> ansatz -> spaces -> option V -> option V -> option V -> V -> V -> pyv -> result D.
  Variable vzero : V.
  (** The [__dict__] of [cls.Options()]. *)
  Variable defaults : dict pystr pyv.

  (** cc/base.py:132-194 with [options] and all orbital data given and [fock=None]; a missing module is an ImportError in
      Python.  The class determines [spin_type]. *)
  Definition construct (t : spin_type) (mf : mfobj) (x : xansatz) (options : dict pystr pyv) (sp : spaces) (omega g G : option V)
      (mo_coeff mo_occ : V) : result obj :=
    if negb (importable (module_of t x)) then Err RuntimeError else
    if negb (Bool.eqb (xa_frank x =? 0) (xa_brank x =? 0)) then Err ValueError else
    options <- (if streqb (xa_boson x) [] then
                  if (match omega with None => 0 | Some w => nmodes w end) =? 0
                  then Ok (dset pystr_eq_dec k_shift (PBool false) options) else Err AssertionError
                else Ok options) ;;
    d <- derive t mf (plain x) sp omega g G mo_coeff mo_occ (get_or options k_shift PNone) ;;
    Ok (mkobj t options mf mo_coeff mo_occ x sp omega g G d (POther vzero) (PBool false) (PBool false) (Some []) (Some [])).

  Definition opt_entry (k : string) (v : option pyv) : list (pystr * pyv) := match v with None => [] | Some x => [(str k, x)] end.
  Definition not_none (v : pyv) : option pyv := match v with PNone => None | _ => Some v end.
  Definition enc_space (sp : spaces) (f : space -> mask) : pyv :=
    match sp with One s => PMask (f s) | Two a b => PPair (PMask (f a)) (PMask (f b)) end.
  Definition enc_aval (v : aval) : pyv :=
    match v with AArr x => POther x | ASpin d => PDict (map (fun p => (fst p, POther (snd p))) d) end.
  Definition enc_amps (a : amps) : pyv := PDict (map (fun p => (fst p, enc_aval (snd p))) a).

  (** dump.py:35-137 [write].  The space is written as a pair for spin type "U" (lines 78-90), which is the case exactly when
      there are two spaces. *)
  Definition write (f : file) (o : obj) : result file :=
    f <- dump f (str "options") (PDict (filter (fun p => match snd p with PNone => false | _ => true end) (o_options o))) ;;
    f <- dump f (str "mol") (enc_mol (mf_mol (o_mf o))) ;;
    f <- dump f (str "mean-field") (PDict [(str "e_tot", POther (mf_e_tot (o_mf o))); (str "mo_energy", POther (mf_mo_energy (o_mf o)));
                                           (str "mo_coeff", POther (mf_mo_coeff (o_mf o))); (str "mo_occ", POther (mf_mo_occ (o_mf o)))]) ;;
    f <- dump f (str "mo") (PDict [(str "mo_coeff", POther (o_mo_coeff o)); (str "mo_occ", POther (o_mo_occ o))]) ;;
    f <- dump f (str "ansatz")
           (PDict ([(str "fermion_ansatz", PStr (xa_fermion (o_ansatz o))); (str "boson_ansatz", PStr (xa_boson (o_ansatz o)));
                    (str "fermion_coupling_rank", PNat (xa_frank (o_ansatz o))); (str "boson_coupling_rank", PNat (xa_brank (o_ansatz o)))]
                   ++ opt_entry "module_name" (option_map PStr (xa_module (o_ansatz o))))) ;;
    f <- dump f (str "space") (PDict [(str "occupied", enc_space (o_space o) sp_occupied); (str "frozen", enc_space (o_space o) sp_frozen);
                                      (str "active", enc_space (o_space o) sp_active)]) ;;
    f <- dump f (str "bosons") (PDict (opt_entry "omega" (option_map POther (o_omega o)) ++ opt_entry "bare_g" (option_map POther (o_g o))
                                       ++ opt_entry "bare_G" (option_map POther (o_G o)))) ;;
    f <- dump f (str "misc") (PDict ([(str "spin_type", PStr (spin_letter (o_spin o)))] ++ opt_entry "e_corr" (not_none (o_e_corr o))
                                     ++ opt_entry "converged" (not_none (o_converged o)) ++ opt_entry "converged_lambda" (not_none (o_converged_lambda o)))) ;;
    f <- match o_amplitudes o with None => Ok f | Some a => dump f (str "amplitudes") (enc_amps a) end ;;
    match o_lambdas o with None => Ok f | Some a => dump f (str "lambdas") (enc_amps a) end.

  Definition dec_spin (s : pystr) : result spin_type :=
    if streqb s (str "R") then Ok SR else if streqb s (str "G") then Ok SG else if streqb s (str "U") then Ok SU else Err KeyError.
  Definition dec_space (d : dict pystr pyv) (pick : pyv -> result pyv) : result space :=
    o <- pick (get_or d (str "occupied") PNone) ;; o <- as_mask o ;;
    f <- pick (get_or d (str "frozen") PNone) ;; f <- as_mask f ;;
    a <- pick (get_or d (str "active") PNone) ;; a <- as_mask a ;;
    make_space o f a.
  Definition as_val (v : pyv) : result V := match v with POther x => Ok x | _ => Err TypeError end.
  (** [dic.get("omega", None)] as an argument of the constructor *)
  Definition opt_val (v : pyv) : result (option V) := match v with PNone => Ok None | _ => x <- as_val v ;; Ok (Some x) end.
  (** dump.py:214-236: a dictionary becomes a namespace of spin blocks for spin type "U" only *)
  Definition dec_aval (u : bool) (v : pyv) : result aval :=
    match v with
    | POther x => Ok (AArr x)
    | PDict d => if u then d' <- mapM (fun p => x <- as_val (snd p) ;; Ok (fst p, x)) d ;; Ok (ASpin d') else Err TypeError
    | _ => Err TypeError
    end.
  Definition dec_amps (u : bool) (v : pyv) : result (option amps) :=
    match v with
    | PNone => Ok None
    | _ => d <- as_dict v ;; a <- mapM (fun p => x <- dec_aval u (snd p) ;; Ok (fst p, x)) d ;; Ok (Some a)
    end.

  (** dump.py:139-260 [read] for a class of the right spin type.  [module_name] is passed as the fifth argument of [Ansatz],
      which is [density_fitting]. *)
  Definition read (f : file) : result obj :=
    od <- as_dict (load f (str "options")) ;;
    let options := fold_left (fun d p => dset pystr_eq_dec (fst p) (snd p) d) od defaults in
    misc <- as_dict (load f (str "misc")) ;;
    s <- match dget pystr_eq_dec (str "spin_type") misc with Some v => decode v | None => Err KeyError end ;;
    t <- dec_spin s ;;
    mol <- dec_mol (load f (str "mol")) ;;
    md <- as_dict (load f (str "mean-field")) ;;
    e <- as_val (get_or md (str "e_tot") PNone) ;; me <- as_val (get_or md (str "mo_energy") PNone) ;;
    mc <- as_val (get_or md (str "mo_coeff") PNone) ;; mo <- as_val (get_or md (str "mo_occ") PNone) ;;
    let mf := mkmf mol e me mc mo (plain_hf t) in
    md <- as_dict (load f (str "mo")) ;;
    mo_coeff <- as_val (get_or md (str "mo_coeff") PNone) ;; mo_occ <- as_val (get_or md (str "mo_occ") PNone) ;;
    ad <- as_dict (load f (str "ansatz")) ;;
    let module := match get_or ad (str "module_name") PNone with PStr s => PBytes s | v => v end in
    xf <- decode (get_or ad (str "fermion_ansatz") (PBytes (str "CCSD"))) ;; xb <- decode (get_or ad (str "boson_ansatz") (PBytes [])) ;;
    xi <- as_nat (get_or ad (str "fermion_coupling_rank") (PNat 0)) ;; xj <- as_nat (get_or ad (str "boson_coupling_rank") (PNat 0)) ;;
    let x := mkxa xf xb xi xj module None in
    sd <- as_dict (load f (str "space")) ;;
    sp <- match t with
          | SU => a <- dec_space sd (part 0) ;; b <- dec_space sd (part 1) ;; Ok (Two a b)
          | _ => s <- dec_space sd (fun v => Ok v) ;; Ok (One s)
          end ;;
    bd <- as_dict (load f (str "bosons")) ;;
    omega <- opt_val (get_or bd (str "omega") PNone) ;; g <- opt_val (get_or bd (str "bare_g") PNone) ;; G <- opt_val (get_or bd (str "bare_G") PNone) ;;
    let u := match t with SU => true | _ => false end in
    a <- dec_amps u (load f (str "amplitudes")) ;; l <- dec_amps u (load f (str "lambdas")) ;;
    o <- construct t mf x options sp omega g G mo_coeff mo_occ ;;
    Ok (mkobj t (o_options o) mf mo_coeff mo_occ x sp omega g G (o_derived o)
              (get_or misc (str "e_corr") (o_e_corr o)) (get_or misc (str "converged") (o_converged o))
              (get_or misc (str "converged_lambda") (o_converged_lambda o)) a l).
End Dump.
Arguments PNone {V}. Arguments PStr {V}. Arguments PBytes {V}. Arguments PNat {V}. Arguments PBool {V}. Arguments PMask {V}.
