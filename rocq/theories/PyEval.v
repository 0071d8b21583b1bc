(* An interpreter for the Python of PySyntax.v: what the statements of /repo/src/arinc424 do.

   Written with continuations: kx receives an exception, kr the value of a return statement, kc a
   `continue`, k whatever comes next.  `Stuck` is the answer where Python would do something that is not
   described here (a TypeError, an AttributeError, an unknown function ...).

   Objects are values, without addresses.  That is right as long as no object is changed while two names
   lead to it, and the interpreter gets stuck rather than let that happen: an object can only be changed
   through the variable that was bound to the call that created it (KOwn), or through `self` in a method
   called on such a variable (KSelf); and the plain name of an object that can change may only be used as the
   receiver of an attribute, a method or an index, as a right operand of `in`, or as an argument (the parameter
   is then KRef and cannot be used to change it).  An object stored anywhere else is never changed again. *)
From Coq Require Import List String Ascii NArith ZArith Bool.
From Verif Require Import PyBase PyRepr Json Record Api Utf8 PySyntax.
Import ListNotations.
Open Scope string_scope.
Open Scope list_scope.
Local Open Scope nat_scope.

(* an exception, with str(e) where something looks at it *)
Record exc := Exc { e_kind : exn; e_text : option str }.

Inductive value :=
| VNone
| VBool (b : bool)
| VInt (z : Z)
| VFloat (x : fl)
| VStr (s : str)
| VList (l : list value)
| VTuple (l : list value)
| VFun (m f : string)                                    (* function f of module m *)
| VClass (m c : string)
| VMod (m : string)
| VPrim (m f : string)                                   (* a function, class or exception of Python's library *)
| VContains (s : str)                                    (* s.__contains__ *)
| VInst (m c : string) (attrs : list (string * value))
| VDict (factory : option value) (items : list (str * value))   (* assignments, the newest first *)
| VIO (s : str)                                          (* io.StringIO *)
| VTable (left : bool) (rows : list table_row)           (* PrettyTable with header Field, Value, Decoded *)
| VTableText (rows : list table_row)                     (* its get_string() *)
| VFile (bs : list N)                                    (* an open file: what is left to be read *)
| VColored (colour text : str)                           (* termcolor.colored *)
| VEntry (name : str)                                    (* os.DirEntry *)
| VExc (e : exc)
| VOther (text : str).                                   (* any other object, with its str() *)

Definition mutable (v : value) : bool :=
  match v with VInst _ _ _ | VDict _ _ | VIO _ | VTable _ _ | VFile _ => true | _ => false end.

(* ---- variables ---- *)
Definition is_mod (v : value) : bool := match v with VMod _ => true | _ => false end.
Inductive kind := KOwn | KSelf | KRef.
Definition writable (k : kind) : bool := match k with KRef => false | _ => true end.
Definition locals : Type := list (string * (kind * value)).
Definition globals : Type := list (string * string * value).
Record st := St { loc : locals; out : list event; glob : globals }.
Inductive ans := Stuck (why : string) | Done (v : value) (s : st) | Raised (e : exc) (s : st).

Fixpoint get {A} (x : string) (l : list (string * A)) : option A :=
  match l with [] => None | (y, v) :: l' => if String.eqb x y then Some v else get x l' end.
Fixpoint set {A} (x : string) (v : A) (l : list (string * A)) : list (string * A) :=
  match l with [] => [(x, v)] | (y, w) :: l' => if String.eqb x y then (y, v) :: l' else (y, w) :: set x v l' end.
Fixpoint unset {A} (x : string) (l : list (string * A)) : list (string * A) :=
  match l with [] => [] | (y, w) :: l' => if String.eqb x y then l' else (y, w) :: unset x l' end.
Fixpoint get_glob (m x : string) (g : globals) : option value :=
  match g with [] => None | (m', y, v) :: g' => if String.eqb m m' && String.eqb x y then Some v else get_glob m x g' end.
Fixpoint set_glob (m x : string) (v : value) (g : globals) : globals :=
  match g with
  | [] => [(m, x, v)]
  | (m', y, w) :: g' => if String.eqb m m' && String.eqb x y then (m', y, v) :: g' else (m', y, w) :: set_glob m x v g'
  end.
Definition bind_local (x : string) (k : kind) (v : value) (s : st) : st := St (set x (k, v) (loc s)) (out s) (glob s).
Definition drop_local (x : string) (s : st) : st := St (unset x (loc s)) (out s) (glob s).
Definition emit_ev (ev : event) (s : st) : st := St (loc s) (out s ++ [ev]) (glob s).
(* back from a call *)
Definition leave (s s' : st) : st := St (loc s) (out s') (glob s').

(* ---- texts of values: str(v), and so f"{v}" and "{}".format(v) ---- *)
Fixpoint strs (l : list value) : option (list str) :=
  match l with
  | [] => Some []
  | VStr s :: l' => option_map (cons s) (strs l')
  | _ => None
  end.
Definition show (v : value) : option str :=
  match v with
  | VStr s => Some s
  | VInt z => Some (str_of_Z z)
  | VList l => option_map repr_list (strs l)
  | VExc e => e_text e
  | VOther t => Some t
  | _ => None
  end.
Fixpoint show_all (l : list value) : option (list str) :=
  match l with
  | [] => Some []
  | v :: l' => match show v, show_all l' with Some s, Some r => Some (s :: r) | _, _ => None end
  end.
Fixpoint cat (l : list str) : str :=
  match l with [] => [] | [s] => s | s :: l' => s ++ cat l' end.

(* format strings: texts and {spec}; doubled braces are not described *)
Inductive piece := PText (s : string) | PHole (spec : string).
Definition text_piece (acc : string) (l : list piece) : list piece := match acc with "" => l | _ => PText acc :: l end.
Fixpoint pieces (t : string) (acc : string) : list piece :=
  match t with
  | "" => text_piece acc []
  | String c t' =>
      if Ascii.eqb c "{" then text_piece acc (pieces t' "")
      else if Ascii.eqb c "}" then PHole acc :: pieces t' ""
      else pieces t' (acc ++ String c "")
  end.
Definition format_one (spec : string) (v : value) : option str :=
  if String.eqb spec "" then show v
  else match v with
       | VFloat x => if String.eqb spec ":.1f" then Some (fmt_fixed 1 x) else if String.eqb spec ":.2f" then Some (fmt_fixed 2 x) else None
       | VInt z => if String.eqb spec ":03" then Some (fmt03 z) else None
       | _ => None
       end.
Fixpoint format_pieces (ps : list piece) (vs : list value) : option (list str) :=
  match ps, vs with
  | [], [] => Some []
  | PText t :: ps', _ => option_map (cons (lit t)) (format_pieces ps' vs)
  | PHole spec :: ps', v :: vs' =>
      match format_one spec v, format_pieces ps' vs' with Some s, Some r => Some (s :: r) | _, _ => None end
  | _, _ => None
  end.
Definition format (t : string) (vs : list value) : option str := option_map cat (format_pieces (pieces t "") vs).

(* ---- operators ---- *)
Definition truth (v : value) : option bool :=
  match v with
  | VNone => Some false
  | VBool b => Some b
  | VInt z => Some (negb (Z.eqb z 0))
  | VStr [] | VList [] | VTuple [] => Some false
  | VStr _ | VList _ | VTuple _ | VInst _ _ _ => Some true
  | _ => None
  end.
Definition py_eq (a b : value) : option bool :=
  match a, b with
  | VStr x, VStr y => Some (str_eqb x y)
  | VInt x, VInt y => Some (Z.eqb x y)
  | VBool x, VBool y => Some (Bool.eqb x y)
  | VInst _ _ _, VInt _ => Some false
  | _, _ => None
  end.
Definition py_is (a b : value) : option bool :=
  match a, b with
  | VBool x, VBool y => Some (Bool.eqb x y)
  | _, VBool _ => Some false
  | _, _ => None
  end.
Fixpoint in_list (x : str) (l : list value) : option bool :=
  match l with
  | [] => Some false
  | VStr y :: l' => if str_eqb x y then Some true else in_list x l'
  | _ => None
  end.
Definition py_in (a b : value) : option bool :=
  match a, b with
  | VStr x, VStr y => Some (contains y x)
  | VStr x, VDict _ items => Some (match assoc x items with Some _ => true | None => false end)
  | VStr x, VList l => in_list x l
  | _, _ => None
  end.
Definition compare (op : cmpop) (a b : value) : option bool :=
  match op with
  | CmpEq => py_eq a b
  | CmpNe => option_map negb (py_eq a b)
  | CmpGt => match a, b with VInt x, VInt y => Some (Z.gtb x y) | _, _ => None end
  | CmpGe => match a, b with VInt x, VInt y => Some (Z.geb x y) | _, _ => None end
  | CmpIs => py_is a b
  | CmpIn => py_in a b
  | CmpNotIn => option_map negb (py_in a b)
  end.
Definition binary (op : binop) (a b : value) : option value :=
  match op, a, b with
  | OpAdd, VStr x, VStr y => Some (VStr (x ++ y))
  | OpAdd, VInt x, VInt y => Some (VInt (x + y))
  | OpSub, VInt x, VInt y => Some (VInt (x - y))
  | OpMul, VInt x, VInt y => Some (VInt (x * y))
  | OpDiv, VFloat x, VInt y => if Z.gtb y 0 then Some (VFloat (fl_div x y)) else None
  | _, _, _ => None
  end.
Definition py_slice (s : str) (lo hi : option Z) : option str :=
  match lo, hi with
  | None, Some b => if Z.geb b 0 then Some (slice_to (Z.to_nat b) s) else None
  | Some a, None => if Z.geb a 0 then Some (slice_from (Z.to_nat a) s) else Some (slice_last (Z.to_nat (- a)) s)
  | Some a, Some b => if Z.geb a 0 && Z.geb b 0 then Some (slice (Z.to_nat a) (Z.to_nat b) s) else None
  | None, None => Some s
  end.
(* literals: default values of parameters, attributes of classes *)
Fixpoint const (e : expr) : option value :=
  match e with
  | EStr s => Some (VStr (lit s))
  | EInt z => Some (VInt z)
  | EBool b => Some (VBool b)
  | ENone => Some VNone
  | EList l => option_map VList ((fix consts (l : list expr) := match l with
      | [] => Some []
      | e :: l' => match const e, consts l' with Some v, Some vs => Some (v :: vs) | _, _ => None end end) l)
  | _ => None
  end.

(* ---- names defined by def, class and import: each once, see text_ok in SrcCheck.v ---- *)
Fixpoint find_def (b : list stmt) (f : string) : option (list (string * option expr) * list stmt) :=
  match b with
  | [] => None
  | SDef g ps body :: b' => if String.eqb f g then Some (ps, body) else find_def b' f
  | _ :: b' => find_def b' f
  end.
Fixpoint find_class (b : list stmt) (c : string) : option (list stmt) :=
  match b with
  | [] => None
  | SClass d body :: b' => if String.eqb c d then Some body else find_class b' c
  | _ :: b' => find_class b' c
  end.
Fixpoint find_const (b : list stmt) (a : string) : option value :=
  match b with
  | [] => None
  | SAssign (EName x) e :: b' => if String.eqb a x then const e else find_const b' a
  | _ :: b' => find_const b' a
  end.
Definition str_l : str := lit "l".
Definition table_header : list str := [lit "Field"; lit "Value"; lit "Decoded"].
Definition same_strs (a b : list str) : bool := if list_eq_dec (list_eq_dec N.eq_dec) a b then true else false.
Definition to_dval (v : value) : option dval :=
  match v with VStr s => Some (DStr s) | VFloat x => Some (DFloat x) | VNone => Some DNone | _ => None end.
Definition exn_named (x : string) : option exn :=
  if String.eqb x "ValueError" then Some ValueError else if String.eqb x "IndexError" then Some IndexError else None.
Definition exn_eqb (a b : exn) : bool :=
  match a, b with
  | ValueError, ValueError | IndexError, IndexError | SystemExit, SystemExit | OSError, OSError => true
  | _, _ => false
  end.
Definition catches (excs : list string) (e : exc) : bool :=
  existsb (fun x => match exn_named x with Some k => exn_eqb k (e_kind e) | None => false end) excs.
Definition builtins : list string :=
  ["print"; "len"; "int"; "float"; "str"; "list"; "hasattr"; "isinstance"; "exit"; "all"; "map"; "open"; "ValueError"].
Definition uppercase : str := lit "ABCDEFGHIJKLMNOPQRSTUVWXYZ".
(* s.index(p) *)
Fixpoint find_sub (s p : str) (i : Z) : option Z :=
  if prefixb p s then Some i else match s with [] => None | _ :: s' => find_sub s' p (i + 1) end.
Fixpoint str_items (l : list (str * value)) : option (list (str * str)) :=
  match l with
  | [] => Some []
  | (k, VStr v) :: l' => option_map (cons (k, v)) (str_items l')
  | _ => None
  end.
(* the dictionary that the assignments leave, in order of insertion *)
Definition py_dict (items : list (str * str)) : list (str * str) :=
  fold_left (fun d kv => dict_update (fst kv) (snd kv) d) (rev items) [].
Fixpoint all_true (l : list value) : option bool :=
  match l with
  | [] => Some true
  | VBool b :: l' => if b then all_true l' else Some false
  | _ => None
  end.
Fixpoint map_contains (s : str) (l : list value) : option (list value) :=
  match l with
  | [] => Some []
  | VStr p :: l' => option_map (cons (VBool (contains s p))) (map_contains s l')
  | _ => None
  end.

Fixpoint for_loop (step : value -> st -> (st -> ans) -> ans) (vs : list value) (s : st) (k : st -> ans) : ans :=
  match vs with
  | [] => k s
  | v :: vs' => step v s (fun s' => for_loop step vs' s' k)
  end.

Section Interpreter.
Variable prog : list (string * pymodule).
Variable files : disk.

Definition module_body (m : string) : list stmt := match get m prog with Some b => b | None => [] end.
Definition class_body (m c : string) : list stmt := match find_class (module_body m) c with Some b => b | None => [] end.
Definition import_from (m n : string) : option value :=
  match get m prog with
  | None => Some (VPrim m n)
  | Some b => match find_def b n with
              | Some _ => Some (VFun m n)
              | None => match find_class b n with Some _ => Some (VClass m n) | None => None end
              end
  end.
Fixpoint static (m : string) (b : list stmt) (x : string) : option value :=
  match b with
  | [] => None
  | SDef f _ _ :: b' => if String.eqb x f then Some (VFun m f) else static m b' x
  | SClass c _ :: b' => if String.eqb x c then Some (VClass m c) else static m b' x
  | SImport n y :: b' => if String.eqb x y then Some (VMod n) else static m b' x
  | SFrom n f y :: b' => if String.eqb x y then import_from n f else static m b' x
  | _ :: b' => static m b' x
  end.
(* a name that is no local variable: the module's, then Python's *)
Definition global (m x : string) (s : st) : option value :=
  match static m (module_body m) x with
  | Some v => Some v
  | None =>
      match get_glob m x (glob s) with
      | Some v => Some v
      | None => if existsb (String.eqb x) builtins then Some (VPrim "builtins" x) else None
      end
  end.
Definition mod_attr (m a : string) (s : st) : option value :=
  match get m prog with
  | Some b => match static m b a with Some v => Some v | None => get_glob m a (glob s) end
  | None =>
      if String.eqb m "os" && String.eqb a "path" then Some (VMod "os.path")
      else if String.eqb m "string" && String.eqb a "ascii_uppercase" then Some (VStr uppercase)
      else Some (VPrim m a)
  end.
Definition inst_attr (m c : string) (attrs : list (string * value)) (a : string) : option value :=
  match get a attrs with Some v => Some v | None => find_const (class_body m c) a end.
Definition getattr (v : value) (a : string) (s : st) : option value :=
  match v with
  | VMod m => mod_attr m a s
  | VInst m c attrs => inst_attr m c attrs a
  | VStr t => if String.eqb a "__contains__" then Some (VContains t) else None
  | VEntry n => if String.eqb a "name" then Some (VStr n) else None
  | _ => None
  end.
Definition name_value (m x : string) (s : st) : option value :=
  match get x (loc s) with Some (_, v) => Some v | None => global m x s end.
(* change the object that a name stands for, if that is allowed *)
Definition store (m x : string) (v : value) (s : st) : option st :=
  match get x (loc s) with
  | Some (k, _) => if writable k then Some (bind_local x k v s) else None
  | None => match get_glob m x (glob s) with Some _ => Some (St (loc s) (out s) (set_glob m x v (glob s))) | None => None end
  end.
(* a call or display that makes a new object *)
Definition makes_object (m : string) (e : expr) (s : st) : bool :=
  match e with
  | EDict _ => true
  | ECall (EName f) _ _ => match name_value m f s with Some (VClass _ _) | Some (VPrim _ _) => true | _ => false end
  | ECall (EAttr (EName n) f) _ _ =>
      match name_value m n s with Some (VMod n') => match mod_attr n' f s with Some (VPrim _ _) => true | _ => false end | _ => false end
  | _ => false
  end.

(* ---- Python's library ---- *)
Definition prim (m f : string) (args : list value) (kws : list (string * value)) (s : st)
    (kx : exc -> st -> ans) (k : value -> st -> ans) : ans :=
  let is n g := String.eqb m n && String.eqb f g in
  match kws with
  | [] =>
      if is "builtins" "print" then
        match args with
        | [VStr t] => k VNone (emit_ev (EvPrint t) s)
        | [VTable true rows] => k VNone (emit_ev (EvTable rows) s)
        | [VColored c t] => k VNone (emit_ev (EvColored c t) s)
        | _ => Stuck "print"
        end
      else if is "builtins" "len" then
        match args with [VStr t] => k (VInt (Z.of_nat (List.length t))) s | _ => Stuck "len" end
      else if is "builtins" "int" then
        match args with
        | [VStr t] => match py_int t with
                      | Some z => k (VInt z) s
                      | None => kx (Exc ValueError (Some (lit "invalid literal for int() with base 10: " ++ repr_str t))) s
                      end
        | _ => Stuck "int"
        end
      else if is "builtins" "float" then
        match args with
        | [VStr t] => match py_float t with Some x => k (VFloat x) s | None => kx (Exc ValueError None) s end
        | _ => Stuck "float"
        end
      else if is "builtins" "str" then
        match args with [v] => match show v with Some t => k (VStr t) s | None => Stuck "str" end | _ => Stuck "str" end
      else if is "builtins" "exit" then
        match args with [] => kx (Exc SystemExit None) s | _ => Stuck "exit" end
      else if is "builtins" "ValueError" then
        k (VExc (Exc ValueError (match args with [VStr t] => Some t | _ => None end))) s
      else if is "builtins" "isinstance" then
        match args with
        | [v; VPrim "builtins" "str"] => k (VBool (match v with VStr _ => true | _ => false end)) s
        | [v; VPrim "builtins" "list"] => k (VBool (match v with VList _ => true | _ => false end)) s
        | _ => Stuck "isinstance"
        end
      else if is "builtins" "all" then
        match args with [VList l] => match all_true l with Some b => k (VBool b) s | None => Stuck "all" end | _ => Stuck "all" end
      else if is "builtins" "map" then
        match args with
        | [VContains t; VList l] => match map_contains t l with Some r => k (VList r) s | None => Stuck "map" end
        | _ => Stuck "map"
        end
      else if is "builtins" "open" then
        match args with
        | [VStr p] => match contents files p with Ok bs => k (VFile bs) s | Err e => kx (Exc e None) s end
        | _ => Stuck "open"
        end
      else if is "collections" "defaultdict" then
        match args with [VFun n g] => k (VDict (Some (VFun n g)) []) s | _ => Stuck "defaultdict" end
      else if is "io" "StringIO" then
        match args with [] => k (VIO []) s | _ => Stuck "StringIO" end
      else if is "json" "dumps" then
        match args with
        | [VDict None items] => match str_items items with Some d => k (VStr (dumps (py_dict d))) s | None => Stuck "dumps" end
        | _ => Stuck "dumps"
        end
      else if is "termcolor" "colored" then
        match args with [VStr t; VStr c] => k (VColored c t) s | _ => Stuck "colored" end
      else if is "os" "scandir" then
        match args with
        | [VStr p] => match entries files p with Ok ns => k (VList (map VEntry ns)) s | Err e => kx (Exc e None) s end
        | _ => Stuck "scandir"
        end
      else if is "os.path" "join" then
        match args with [VStr p; VStr n] => k (VStr (path_join p n)) s | _ => Stuck "join" end
      else Stuck f
  | [("field_names", VList l)] =>
      if is "prettytable" "PrettyTable" then
        match args, strs l with
        | [], Some names => if same_strs names table_header then k (VTable false []) s else Stuck "PrettyTable"
        | _, _ => Stuck "PrettyTable"
        end
      else Stuck f
  | [("sort_keys", VBool true); ("indent", VInt 4); ("separators", VTuple [VStr a; VStr b])] =>
      if is "json" "dumps" then
        match args with
        | [VDict None items] =>
            match str_items items with
            | Some d => if str_eqb a (lit ",") && str_eqb b (lit ": ") then k (VStr (dumps_pretty (py_dict d))) s else Stuck "dumps"
            | None => Stuck "dumps"
            end
        | _ => Stuck "dumps"
        end
      else Stuck f
  | _ => Stuck f
  end.

Definition or_stuck {A} (why : string) (o : option A) (k : A -> ans) : ans := match o with Some a => k a | None => Stuck why end.

Section Calls.
(* running a function: module, parameters, body, how the first parameter is held, arguments; the state handed
   to the continuations is the callee's *)
Variable run : string -> list (string * option expr) -> list stmt -> kind -> list value -> st ->
  (exc -> st -> ans) -> (value -> st -> ans) -> ans.

Definition self_value (ps : list (string * option expr)) (s : st) : option value :=
  match ps with (x, _) :: _ => option_map snd (get x (loc s)) | [] => None end.
Definition hasattr_call (args : list value) (s : st) (k : value -> st -> ans) : ans :=
  match args with
  | [VInst m c attrs; VStr a] =>
      (* the only names asked for *)
      if str_eqb a (lit "cont_idx") then k (VBool (match inst_attr m c attrs "cont_idx" with Some _ => true | None => false end)) s
      else if str_eqb a (lit "app_idx") then k (VBool (match inst_attr m c attrs "app_idx" with Some _ => true | None => false end)) s
      else Stuck "hasattr"
  | _ => Stuck "hasattr"
  end.
Definition call_value (f : value) (args : list value) (kws : list (string * value)) (s : st)
    (kx : exc -> st -> ans) (k : value -> st -> ans) : ans :=
  match f with
  | VFun m g =>
      match kws, find_def (module_body m) g with
      | [], Some (ps, body) => run m ps body KRef args s (fun e s' => kx e (leave s s')) (fun v s' => k v (leave s s'))
      | _, _ => Stuck g
      end
  | VClass m c =>
      match kws, find_def (class_body m c) "__init__" with
      | [], Some (ps, body) =>
          run m ps body KSelf (VInst m c [] :: args) s (fun e s' => kx e (leave s s'))
            (fun _ s' => or_stuck "self" (self_value ps s') (fun v => k v (leave s s')))
      | [], None => match args with [] => k (VInst m c []) s | _ => Stuck c end
      | _, _ => Stuck c
      end
  | VPrim m g =>
      if String.eqb m "builtins" && String.eqb g "hasattr" then match kws with [] => hasattr_call args s k | _ => Stuck g end
      else prim m g args kws s kx k
  | _ => Stuck "call"
  end.

(* x.a(args), where x is (Some) variable, held in some way, or (None) an expression *)
Definition call_method (x : option (string * kind)) (v : value) (a : string) (args : list value) (s : st)
    (kx : exc -> st -> ans) (k : value -> st -> ans) : ans :=
  let changed v' r := match x with
                      | Some (y, kd) => if writable kd then k r (bind_local y kd v' s) else Stuck a
                      | None => Stuck a
                      end in
  match v with
  | VStr t =>
      if String.eqb a "strip" then match args with [] => k (VStr (strip t)) s | _ => Stuck a end
      else if String.eqb a "isalnum" then match args with [] => k (VBool (isalnum t)) s | _ => Stuck a end
      else if String.eqb a "isalpha" then match args with [] => k (VBool (isalpha t)) s | _ => Stuck a end
      else if String.eqb a "isnumeric" then match args with [] => k (VBool (isnumeric t)) s | _ => Stuck a end
      else if String.eqb a "endswith" then match args with [VStr p] => k (VBool (endswith t p)) s | _ => Stuck a end
      else if String.eqb a "startswith" then
        match args with [VTuple [VStr p; VStr q]] => k (VBool (startswith t p || startswith t q)) s | _ => Stuck a end
      else if String.eqb a "lstrip" then
        match args with [VStr p] => if str_eqb p (lit "0") then k (VStr (lstrip0 t)) s else Stuck a | _ => Stuck a end
      else if String.eqb a "index" then
        match args with
        | [VStr p] => match find_sub t p 0 with Some i => k (VInt i) s | None => kx (Exc ValueError (Some (lit "substring not found"))) s end
        | _ => Stuck a
        end
      else Stuck a
  | VIO t =>
      if String.eqb a "write" then match args with [VStr p] => changed (VIO (t ++ p)) (VInt (Z.of_nat (List.length p))) | _ => Stuck a end
      else if String.eqb a "getvalue" then match args with [] => k (VStr t) s | _ => Stuck a end
      else Stuck a
  | VTable l rows =>
      if String.eqb a "add_row" then
        match args with
        | [VList [VStr n; VStr q; d]] => match to_dval d with Some d' => changed (VTable l (rows ++ [(n, q, d')])) VNone | None => Stuck a end
        | _ => Stuck a
        end
      else if String.eqb a "get_string" then match args with [] => if l then k (VTableText rows) s else Stuck a | _ => Stuck a end
      else Stuck a
  | VDict None items =>
      if String.eqb a "update" then
        match args with [VDict None new] => changed (VDict None (new ++ items)) VNone | _ => Stuck a end
      else Stuck a
  | VFile bs =>
      if String.eqb a "readlines" then
        match args with
        | [] => match decode_utf8 bs with
                | Ok t => changed (VFile []) (VList (map VStr (readlines t)))
                | Err e => kx (Exc e None) s
                end
        | _ => Stuck a
        end
      else Stuck a
  | VInst m c attrs =>
      match get a attrs with
      | Some f => call_value f args [] s kx k
      | None =>
          match find_def (class_body m c) a with
          | Some (ps, body) =>
              match x with
              | Some (y, kd) =>
                  if writable kd then
                    if existsb mutable args then Stuck a
                    else
                      run m ps body KSelf (v :: args) s
                        (fun e s' => or_stuck "self" (self_value ps s') (fun v' => kx e (bind_local y kd v' (leave s s'))))
                        (fun r s' => or_stuck "self" (self_value ps s') (fun v' => k r (bind_local y kd v' (leave s s'))))
                  else run m ps body KRef (v :: args) s (fun e s' => kx e (leave s s')) (fun r s' => k r (leave s s'))
              | None => run m ps body KRef (v :: args) s (fun e s' => kx e (leave s s')) (fun r s' => k r (leave s s'))
              end
          | None => Stuck a
          end
      end
  | _ => Stuck a
  end.

(* c[i]; c is (Some) variable or (None) an expression *)
Definition get_item (m : string) (x : option string) (c i : value) (s : st) (kx : exc -> st -> ans) (k : value -> st -> ans) : ans :=
  match c, i with
  | VStr t, VInt z =>
      if Z.geb z 0 then
        match index t (Z.to_nat z) with
        | Ok r => k (VStr r) s
        | Err e => kx (Exc e (Some (lit "string index out of range"))) s
        end
      else Stuck "index"
  | VDict f items, VStr key =>
      match assoc key items with
      | Some v => k v s
      | None =>
          match f, x with
          | Some g, Some y =>
              call_value g [] [] s kx (fun v s => or_stuck y (store m y (VDict f ((key, v) :: items)) s) (k v))
          | _, _ => Stuck "KeyError"
          end
      end
  | _, _ => Stuck "index"
  end.

(* expressions from left to right; ev evaluates one *)
Definition eval_list (ev : expr -> st -> (value -> st -> ans) -> ans) :=
  fix elems (es : list expr) (s : st) (k : list value -> st -> ans) : ans :=
    match es with [] => k [] s | e :: es' => ev e s (fun v s => elems es' s (fun vs s => k (v :: vs) s)) end.
Definition eval_kws (ev : expr -> st -> (value -> st -> ans) -> ans) :=
  fix elems (es : list (string * expr)) (s : st) (k : list (string * value) -> st -> ans) : ans :=
    match es with [] => k [] s | (a, e) :: es' => ev e s (fun v s => elems es' s (fun vs s => k ((a, v) :: vs) s)) end.
(* operands that may be a plain name of an object that can change *)
Definition eval_obj (ev : expr -> st -> (value -> st -> ans) -> ans) (m : string) (e : expr) (s : st) (k : value -> st -> ans) : ans :=
  match e with EName x => or_stuck x (name_value m x s) (fun v => k v s) | _ => ev e s k end.

Fixpoint eval (m : string) (e : expr) (s : st) (kx : exc -> st -> ans) (k : value -> st -> ans) {struct e} : ans :=
  let ev e s k := eval m e s kx k in
  let eval_args := eval_list (eval_obj ev m) in
  match e with
  | EStr t => k (VStr (lit t)) s
  | EInt z => k (VInt z) s
  | EBool b => k (VBool b) s
  | ENone => k VNone s
  | EName x => or_stuck x (name_value m x s) (fun v => if mutable v then Stuck x else k v s)
  | EAttr e a => eval_obj ev m e s (fun v s => or_stuck a (getattr v a s) (fun r => k r s))
  | EItem (EName x) i => eval m i s kx (fun iv s => or_stuck x (name_value m x s) (fun c => get_item m (Some x) c iv s kx k))
  | EItem c i => eval m c s kx (fun cv s => eval m i s kx (fun iv s => get_item m None cv iv s kx k))
  | ESlice c lo hi =>
      eval m c s kx (fun cv s =>
        let bound (o : option expr) s (k : option Z -> st -> ans) :=
          match o with None => k None s | Some e => eval m e s kx (fun v s => match v with VInt z => k (Some z) s | _ => Stuck "slice" end) end in
        bound lo s (fun a s => bound hi s (fun b s =>
          match cv with VStr t => or_stuck "slice" (py_slice t a b) (fun r => k (VStr r) s) | _ => Stuck "slice" end)))
  | ECall f args kws =>
      match f with
      | EAttr (EStr t) a =>
          if String.eqb a "format" then eval_args args s (fun vs s => or_stuck t (format t vs) (fun r => k (VStr r) s)) else Stuck a
      | EAttr (EName x) a =>
          match get x (loc s) with
          | Some kv =>
              match kws with
              | [] =>
                  if is_mod (snd kv) then Stuck a
                  else eval_args args s (fun vs s => or_stuck x (get x (loc s)) (fun kv => call_method (Some (x, fst kv)) (snd kv) a vs s kx k))
              | _ => Stuck a
              end
          | None =>
              or_stuck x (global m x s) (fun v =>
                match v with
                | VMod n => or_stuck a (mod_attr n a s) (fun g => eval_args args s (fun vs s => eval_kws ev kws s (fun ks s => call_value g vs ks s kx k)))
                | _ => Stuck a
                end)
          end
      | EAttr e a =>
          eval m e s kx (fun v s =>
            match v with
            | VMod n => or_stuck a (mod_attr n a s) (fun g => eval_args args s (fun vs s => eval_kws ev kws s (fun ks s => call_value g vs ks s kx k)))
            | _ => match kws with [] => eval_args args s (fun vs s => call_method None v a vs s kx k) | _ => Stuck a end
            end)
      | _ => eval m f s kx (fun g s => eval_args args s (fun vs s => eval_kws ev kws s (fun ks s => call_value g vs ks s kx k)))
      end
  | EBin op a b => eval m a s kx (fun x s => eval m b s kx (fun y s => or_stuck "operator" (binary op x y) (fun r => k r s)))
  | ENeg a => eval m a s kx (fun x s => match x with VInt z => k (VInt (- z)) s | _ => Stuck "-" end)
  | ENot a => eval m a s kx (fun x s => or_stuck "not" (truth x) (fun b => k (VBool (negb b)) s))
  | EAnd a b => eval m a s kx (fun x s => or_stuck "and" (truth x) (fun t => if t then eval m b s kx k else k x s))
  | EOr a b => eval m a s kx (fun x s => or_stuck "or" (truth x) (fun t => if t then k x s else eval m b s kx k))
  | ECmp op a b => eval m a s kx (fun x s => eval_obj ev m b s (fun y s => or_stuck "comparison" (compare op x y) (fun r => k (VBool r) s)))
  | EIfExp c a b => eval m c s kx (fun x s => or_stuck "if" (truth x) (fun t => if t then eval m a s kx k else eval m b s kx k))
  | EList l => eval_list ev l s (fun vs s => k (VList vs) s)
  | ETuple l => eval_list ev l s (fun vs s => k (VTuple vs) s)
  | EDict l =>
      (fix pairs (es : list (expr * expr)) (acc : list (str * value)) (s : st) : ans :=
        match es with
        | [] => k (VDict None acc) s
        | (a, b) :: es' => eval m a s kx (fun x s => eval m b s kx (fun y s => match x with VStr t => pairs es' ((t, y) :: acc) s | _ => Stuck "key" end))
        end) l [] s
  | EFString ps => eval_list ev ps s (fun vs s => or_stuck "f-string" (show_all vs) (fun ts => k (VStr (cat ts)) s))
  end.

(* statements one after the other; ex executes one *)
Definition exec_list (ex : stmt -> st -> (st -> ans) -> ans) :=
  fix block (cs : list stmt) (s : st) (k : st -> ans) : ans :=
    match cs with [] => k s | c :: cs' => ex c s (fun s => block cs' s k) end.
Fixpoint exec (m : string) (top : bool) (c : stmt) (s : st) (kx : exc -> st -> ans) (kr : value -> st -> ans) (kc k : st -> ans) {struct c} : ans :=
  let block kx kr kc := exec_list (fun c s k => exec m top c s kx kr kc k) in
  let assign x kd v s k :=
    if top then k (St (loc s) (out s) (set_glob m x v (glob s)))
    else match get x (loc s) with Some (KSelf, _) => Stuck x | _ => k (bind_local x kd v s) end in
  match c with
  | SExpr e => eval m e s kx (fun _ s => k s)
  | SAssign (EName x) e =>
      eval m e s kx (fun v s => assign x (if mutable v && makes_object m e s then KOwn else KRef) v s k)
  | SAssign (EAttr (EName x) a) e =>
      eval m e s kx (fun v s =>
        match get x (loc s) with
        | Some (kd, VInst n c attrs) => if writable kd then k (bind_local x kd (VInst n c (set a v attrs)) s) else Stuck x
        | Some (kd, VTable _ rows) =>
            match v with
            | VStr t => if writable kd && String.eqb a "align" && str_eqb t str_l then k (bind_local x kd (VTable true rows) s) else Stuck x
            | _ => Stuck x
            end
        | _ => Stuck x
        end)
  | SAssign (EItem (EName x) i) e =>
      eval m e s kx (fun v s => eval m i s kx (fun iv s =>
        match name_value m x s, iv with
        | Some (VDict f items), VStr key => or_stuck x (store m x (VDict f ((key, v) :: items)) s) k
        | _, _ => Stuck x
        end))
  | SAssign _ _ => Stuck "assignment"
  | SAug (EName x) op e =>
      eval m (EName x) s kx (fun a s => eval m e s kx (fun b s => or_stuck "operator" (binary op a b) (fun v => assign x KRef v s k)))
  | SAug _ _ _ => Stuck "assignment"
  | SReturn None => kr VNone s
  | SReturn (Some e) => eval m e s kx kr
  | SRaise e => eval m e s kx (fun v s => match v with VExc x => kx x s | _ => Stuck "raise" end)
  | SIf c a b => eval m c s kx (fun v s => or_stuck "if" (truth v) (fun t => if t then block kx kr kc a s k else block kx kr kc b s k))
  | SMatch e cases =>
      eval m e s kx (fun v s =>
        (fix try_cases (cs : list (pattern * list stmt)) : ans :=
          match cs with
          | [] => k s
          | (PWild, b) :: _ => block kx kr kc b s k
          | (PValue p, b) :: cs' =>
              or_stuck "case" (const p) (fun pv => or_stuck "case" (py_eq v pv) (fun t => if t then block kx kr kc b s k else try_cases cs'))
          end) cases)
  | SFor x e b =>
      eval m e s kx (fun v s =>
        match v with
        | VList vs => for_loop (fun v s next => assign x KRef v s (fun s => block kx kr next b s next)) vs s k
        | _ => Stuck "for"
        end)
  | SWith e x b =>
      eval m e s kx (fun v s =>
        match v with
        | VFile _ =>
            if top then Stuck "with"
            else block (fun ex s => kx ex (drop_local x s)) (fun r s => kr r (drop_local x s)) (fun s => kc (drop_local x s))
                   b (bind_local x KOwn v s) (fun s => k (drop_local x s))
        | _ => Stuck "with"
        end)
  | STry b excs x h =>
      if top then Stuck "try"
      else
        block (fun ex s => if catches excs ex
                           then block (fun ex s => kx ex (drop_local x s)) (fun r s => kr r (drop_local x s)) (fun s => kc (drop_local x s))
                                  h (bind_local x KRef (VExc ex) s) (fun s => k (drop_local x s))
                           else kx ex s) kr kc b s k
  | SContinue => kc s
  | SDef _ _ _ | SClass _ _ | SImport _ _ | SFrom _ _ _ => if top then k s else Stuck "definition"
  end.
Definition exec_block (m : string) (top : bool) (cs : list stmt) (s : st) (kx : exc -> st -> ans) (kr : value -> st -> ans) (kc k : st -> ans) : ans :=
  exec_list (fun c s k => exec m top c s kx kr kc k) cs s k.
End Calls.

Fixpoint bind_params (ps : list (string * option expr)) (args : list value) : option locals :=
  match ps, args with
  | [], [] => Some []
  | (x, _) :: ps', v :: args' => option_map (cons (x, (KRef, v))) (bind_params ps' args')
  | (x, Some d) :: ps', [] => match const d with Some v => option_map (cons (x, (KRef, v))) (bind_params ps' []) | None => None end
  | _, _ => None
  end.
Definition hold_first (kd : kind) (l : locals) : locals := match l with (x, (_, v)) :: l' => (x, (kd, v)) :: l' | [] => [] end.
(* fuel bounds the depth of calls *)
Fixpoint run (fuel : nat) (m : string) (ps : list (string * option expr)) (body : list stmt) (kd : kind) (args : list value) (s : st)
    (kx : exc -> st -> ans) (k : value -> st -> ans) {struct fuel} : ans :=
  match fuel with
  | O => Stuck "depth of calls"
  | S n =>
      match bind_params ps args with
      | None => Stuck "arguments"
      | Some l => exec_block (run n) m false body (St (hold_first kd l) (out s) (glob s)) kx k (fun _ => Stuck "continue") (fun s' => k VNone s')
      end
  end.
(* f(args) *)
Definition call (fuel : nat) (f : value) (args : list value) (s : st) (kx : exc -> st -> ans) (k : value -> st -> ans) : ans :=
  call_value (run fuel) f args [] s kx k.
(* import: the statements of the modules, in order *)
Fixpoint import_all (fuel : nat) (ms : list (string * pymodule)) (s : st) (k : st -> ans) : ans :=
  match ms with
  | [] => k s
  | (m, b) :: ms' =>
      exec_block (run fuel) m true b s Raised (fun _ _ => Stuck "return") (fun _ => Stuck "continue") (fun s => import_all fuel ms' s k)
  end.
End Interpreter.
