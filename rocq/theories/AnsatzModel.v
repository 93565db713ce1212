(** Model of ebcc/core/ansatz.py and of [available_models] in ebcc/__init__.py.
    Not modelled: the import of the generated module ([_get_eqns] beyond its module name).
    Letter classification ([isalpha], [islower]) is that of ASCII. *)
From Coq Require Import String.
From Verif Require Import Base.
Set Implicit Arguments.
Local Open Scope nat_scope.
Local Open Scope list_scope.
Local Open Scope py_scope.

Definition chr_of (s : string) : nat := hd 0 (str s).

(** * String primitives. *)
Fixpoint is_prefix (p s : pystr) : bool :=
  match p, s with [], _ => true | a :: p', b :: s' => (a =? b) && is_prefix p' s' | _, [] => false end.
(** [key in op] *)
Fixpoint substr (p s : pystr) : bool :=
  is_prefix p s || match s with [] => false | _ :: s' => substr p s' end.
(** [s.replace(p, r)] for non-empty [p]: non-overlapping occurrences from the left; [skip] is the number of
    characters of the current occurrence still to be passed over. *)
Fixpoint replace_from (p r s : pystr) (skip : nat) : pystr :=
  match s with
  | [] => []
  | c :: s' => match skip with
               | S k => replace_from p r s' k
               | 0 => if is_prefix p s then r ++ replace_from p r s' (length p - 1) else c :: replace_from p r s' 0
               end
  end.
Definition replace_all (p r s : pystr) : pystr := replace_from p r s 0.
(** [s.replace(p, r, 1)] *)
Fixpoint replace_first (p r s : pystr) : pystr :=
  if is_prefix p s then r ++ skipn (length p) s
  else match s with [] => [] | c :: s' => c :: replace_first p r s' end.
(** [s.replace(a, r)] and [s.replace(a, r, 1)] for a single character [a]. *)
Definition replace_chr (a : nat) (r s : pystr) : pystr := flat_map (fun c => if c =? a then r else [c]) s.
Fixpoint replace_chr1 (a b : nat) (s : pystr) : pystr :=
  match s with [] => [] | c :: s' => if c =? a then b :: s' else c :: replace_chr1 a b s' end.

Definition is_lower (c : nat) : bool := (97 <=? c) && (c <=? 122).
(** Decimal rendering of a natural number ("%d", f-strings). *)
Fixpoint dec_fuel (fuel n : nat) : pystr :=
  match fuel with
  | 0 => []
  | S f => if n <? 10 then [48 + n] else dec_fuel f (n / 10) ++ [48 + n mod 10]
  end.
Definition dec (n : nat) : pystr := dec_fuel (S n) n.

(** * Names and identifiers. *)
Definition c_w := 119. Definition c_x := 120. Definition c_y := 121. Definition c_p := 112.
Definition c_lp := 40. Definition c_rp := 41. Definition c_lb := 91. Definition c_rb := 93.
Definition c_dash := 45. Definition c_us := 95. Definition c_q := 39.

(** ansatz.py:37-63 *)
Definition name_to_identifier (name : pystr) : pystr :=
  let iden := flat_map (fun c => if is_lower c then [c_w; c; c_w] else [c]) name in
  let iden := replace_chr c_rp [c_x] (replace_chr c_lp [c_x] iden) in
  let iden := replace_chr c_rb [c_y] (replace_chr c_lb [c_y] iden) in
  let iden := replace_chr c_dash [c_us] iden in
  replace_chr c_q [c_p] iden.

(** ansatz.py:87-91: [while "x" in name]; the fuel is the length, since each round removes an "x". *)
Fixpoint unbracket (fuel a l r : nat) (s : pystr) : pystr :=
  match fuel with
  | 0 => s
  | S f => if memb a s then unbracket f a l r (replace_chr1 a r (replace_chr1 a l s)) else s
  end.
(** ansatz.py:66-93 *)
Definition identifier_to_name (iden : pystr) : pystr :=
  let name := replace_chr c_dash [c_us] iden in
  let name := replace_chr c_w [] name in
  let name := unbracket (length name) c_x c_lp c_rp name in
  let name := unbracket (length name) c_y c_lp c_rp name in
  replace_chr c_p [c_q] name.

(** [s.rstrip(chars)] *)
Definition rstrip (chars s : pystr) : pystr :=
  rev ((fix go l := match l with [] => [] | c :: l' => if memb c chars then go l' else l end) (rev s)).
(** __init__.py:148-171 [available_models]: the name listed for one file of the codegen directory. *)
Definition listed_name (file : pystr) : pystr :=
  identifier_to_name (replace_chr c_us [c_dash] (rstrip (str ".py") file)).

(** * The ansatz object. *)
Record ansatz := mka { fermion : pystr; boson : pystr; frank : nat; brank : nat; dfit : bool }.

(** ansatz.py:15-34 *)
Definition named_ansatzes : list (pystr * (pystr * pystr * nat * nat)) :=
  map (fun '(n, (f, b, i, j)) => (str n, (str f, str b, i, j)))
  [("MP2", ("MP2", "", 0, 0)); ("MP3", ("MP3", "", 0, 0)); ("CCD", ("CCD", "", 0, 0)); ("CCSD", ("CCSD", "", 0, 0));
   ("CCSDT", ("CCSDT", "", 0, 0)); ("CCSDTQ", ("CCSDTQ", "", 0, 0)); ("CCSD(T)", ("CCSD(T)", "", 0, 0));
   ("CC2", ("CC2", "", 0, 0)); ("CC3", ("CC3", "", 0, 0)); ("LCCD", ("LCCD", "", 0, 0)); ("LCCSD", ("LCCSD", "", 0, 0));
   ("QCISD", ("QCISD", "", 0, 0)); ("DCD", ("DCD", "", 0, 0)); ("DCSD", ("DCSD", "", 0, 0)); ("CCSDt'", ("CCSDt'", "", 0, 0));
   ("CCSD-S-1-1", ("CCSD", "S", 1, 1)); ("CCSD-SD-1-1", ("CCSD", "SD", 1, 1)); ("CCSD-SD-1-2", ("CCSD", "SD", 1, 2))]%string.

(** ansatz.py:135-150 *)
Definition from_string (s : pystr) (df : bool) : result ansatz :=
  match dget pystr_eq_dec s named_ansatzes with
  | None => Err ModelNotImplemented
  | Some (f, b, i, j) => Ok (mka f b i j df)
  end.

(** ansatz.py:152-163 [__repr__] *)
Definition ansatz_name (a : ansatz) : pystr :=
  (if dfit a then str "DF" else []) ++ fermion a ++
  (match boson a with [] => [] | _ => str "-" ++ boson a end) ++
  (if negb (frank a =? 0) || negb (brank a =? 0) then str "-" ++ dec (frank a) ++ str "-" ++ dec (brank a) else []).

(** ansatz.py:170-193 *)
Definition has_perturbative (a : ansatz) : bool :=
  existsb (fun s => memb c_lp s && memb c_rp s) [fermion a; boson a].
Definition is_one_shot (a : ansatz) : bool :=
  forallb (fun s => is_prefix (str "MP") s || match s with [] => true | _ => false end) [fermion a; boson a].

(** * Cluster ranks. *)
Inductive which := Wt | Wl | Wip | Wea | Wee.
Definition entry := (pystr * pystr * nat)%type.

(** ansatz.py:214-225 *)
Definition adapt_key (w : which) (key : pystr) : pystr :=
  let n := length key / 2 in
  match w with
  | Wip => firstn (length key - 1) key
  | Wea => skipn n key ++ firstn (n - 1) key
  | Wl => skipn n key ++ firstn n key
  | Wt | Wee => key
  end.
Definition symbol (w : which) : pystr := match w with Wt => str "t" | Wl => str "l" | _ => str "r" end.

(** ansatz.py:227-241.  [rspin] is [spin_type == "R"]. *)
Definition nS (w : which) : list entry := [(symbol w ++ str "1", adapt_key w (str "ov"), 1)].
Definition nD (w : which) : list entry := [(symbol w ++ str "2", adapt_key w (str "oovv"), 2)].
Definition nT (w : which) : list entry := [(symbol w ++ str "3", adapt_key w (str "ooovvv"), 3)].
Definition nt (w : which) : list entry := [(symbol w ++ str "3", adapt_key w (str "ooOvvV"), 3)].
Definition nt' (w : which) : list entry := [(symbol w ++ str "3", adapt_key w (str "OOOVVV"), 3)].
Definition nQ (rspin : bool) (w : which) : list entry :=
  if rspin then [(symbol w ++ str "4a", str "oooovvvv", 4); (symbol w ++ str "4b", str "oooovvvv", 4)]
  else [(symbol w ++ str "4", str "oooovvvv", 4)].
(** The keys in the order of [sorted(notations.keys(), key=len)[::-1]]. *)
Definition notations (rspin : bool) (w : which) : list (pystr * list entry) :=
  [(str "t'", nt' w); (str "4", nS w ++ nD w ++ nT w ++ nQ rspin w); (str "3", nS w ++ nD w ++ nT w);
   (str "2", nS w ++ nD w); (str "Q", nQ rspin w); (str "t", nt w); (str "T", nT w); (str "D", nD w); (str "S", nS w)].

(** ansatz.py:243-250, 305-312: drop perturbative corrections.  After one round no "(" is left, so the loop
    runs at most once. *)
Definition strip_parens (op : pystr) : result pystr :=
  match index_of c_lp op with
  | None => Ok op
  | Some start =>
      match index_of c_rp op with
      | None => Err ValueError
      | Some end_ =>
          let op := firstn start op in
          Ok (if S end_ <? length op then op ++ skipn (S end_) op else op)
      end
  end.

(** ansatz.py:252-258 with [METHOD_TYPES] sorted by length and reversed.  When nothing matches, the loop variable
    keeps its last value, "MP". *)
Definition method_types : list pystr := map str ["QCC"; "QCI"; "LCC"; "DC"; "CC"; "MP"]%string.
Fixpoint strip_method (types : list pystr) (last op : pystr) : pystr * pystr :=
  match types with
  | [] => (last, op)
  | m :: types' => if is_prefix m op then (m, replace_first m [] op) else strip_method types' m op
  end.

(** ansatz.py:270-274 *)
Fixpoint pick_ranks (tbl : list (pystr * list entry)) (op : pystr) : list entry :=
  match tbl with
  | [] => []
  | (key, es) :: tbl' => if substr key op then es ++ pick_ranks tbl' (replace_all key [] op) else pick_ranks tbl' op
  end.

Definition entry_eq_dec : forall a b : entry, {a = b} + {a <> b}.
Proof. repeat decide equality. Defined.
Fixpoint has_dup (l : list entry) : bool :=
  match l with [] => false | x :: l' => (if in_dec entry_eq_dec x l' then true else false) || has_dup l' end.
(** [sorted(ranks, key=lambda x: x[2])]: stable. *)
Fixpoint insert_rank (x : entry) (l : list entry) : list entry :=
  match l with [] => [x] | y :: l' => if snd x <=? snd y then x :: l else y :: insert_rank x l' end.
Definition sort_rank (l : list entry) : list entry := fold_right insert_rank [] l.

(** ansatz.py:262-268 *)
Definition operator_of (w : which) (f op0 : pystr) : pystr :=
  let (m, op) := strip_method method_types [] op0 in
  let op := if streqb m (str "MP") && (match w with Wt | Wl => true | _ => false end) then str "D" else op in
  if streqb f (str "CCD") && (match w with Wip | Wea | Wee => true | _ => false end) then str "SD" else op.

(** ansatz.py:195-283 *)
Definition fermionic_cluster_ranks (a : ansatz) (rspin : bool) (w : which) : result (list entry) :=
  match fermion a with
  | [] => Ok []
  | f => op0 <- strip_parens f ;;
         let ranks := pick_ranks (notations rspin w) (operator_of w f op0) in
         if has_dup ranks then Err ModelNotImplemented else Ok (sort_rank ranks)
  end.

(** ansatz.py:285-332 *)
Definition bsymbol (w : which) : pystr := match w with Wt => str "s" | _ => str "ls" end.
Definition bS (w : which) : list entry := [(bsymbol w ++ str "1", str "b", 1)].
Definition bD (w : which) : list entry := [(bsymbol w ++ str "2", str "bb", 2)].
Definition bT (w : which) : list entry := [(bsymbol w ++ str "3", str "bbb", 3)].
Definition bnotations (w : which) : list (pystr * list entry) :=
  [(str "3", bS w ++ bD w ++ bT w); (str "2", bS w ++ bD w); (str "T", bT w); (str "D", bD w); (str "S", bS w)].
Definition bosonic_cluster_ranks (a : ansatz) (w : which) : result (list entry) :=
  match boson a with
  | [] => Ok []
  | b => op <- strip_parens b ;;
         let ranks := pick_ranks (bnotations w) op in
         if has_dup ranks then Err ModelNotImplemented else Ok (sort_rank ranks)
  end.

(** ansatz.py:334-378 *)
Definition cadapt (w : which) (key : pystr) (nf nb : nat) : result pystr :=
  match w with
  | Wip | Wea | Wee => Err ModelNotImplemented
  | Wl => Ok (firstn nb key ++ skipn (nb + nf) key ++ slice nb (nb + nf) key)
  | Wt => Ok key
  end.
Definition csymbol (w : which) : pystr := match w with Wt => str "u" | _ => str "lu" end.
Definition coupling_cluster_ranks (a : ansatz) (w : which) : result (list (pystr * pystr * nat * nat)) :=
  mapM (fun p : nat * nat =>
          let (i, j) := p in
          key <- cadapt w (repeat (chr_of "b") j ++ repeat (chr_of "o") i ++ repeat (chr_of "v") i) i j ;;
          Ok (csymbol w ++ dec i ++ dec j, key, i, j))
       (flat_map (fun i => map (fun j => (i, j)) (seq 1 (brank a))) (seq 1 (frank a))).
