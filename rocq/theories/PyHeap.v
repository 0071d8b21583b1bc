(* A second interpreter for the Python of PySyntax.v, in which objects have addresses.

   Values are what a variable can hold: numbers, texts, lists and so on, and references to objects on the heap.
   Assignment, passing an argument and storing a value copy the reference; a method or an assignment to an attribute or
   an item changes the object it refers to, wherever else it is referred to.  A name is local to a function if the
   function assigns it anywhere, as in Python.  The answers: a value, an exception, or `HStuck` where Python would do
   something that is not described here.  Lists are no objects of the heap because nothing in this part of the language can
   change a list. *)
From Coq Require Import List String Ascii NArith ZArith Bool.
From Verif Require Import PyBase PyRepr Json Record Api Utf8 PySyntax PyEval SrcCheck.
Import ListNotations.
Open Scope string_scope.
Open Scope list_scope.
Local Open Scope nat_scope.

Inductive hval :=
| HNone
| HBool (b : bool)
| HInt (z : Z)
| HFloat (x : fl)
| HStr (s : str)
| HList (l : list hval)
| HTuple (l : list hval)
| HFun (m f : string)
| HClass (m c : string)
| HMod (m : string)
| HPrim (m f : string)
| HContains (s : str)
| HRef (a : nat)
| HTableText (rows : list table_row)
| HColored (colour text : str)
| HEntry (name : str)
| HExc (e : exc)
| HOther (text : str).
Inductive obj :=
| OInst (m c : string) (attrs : list (string * hval))
| ODict (factory : option hval) (items : list (str * hval))          (* assignments, the newest first *)
| OIO (s : str)
| OTable (left : bool) (rows : list table_row)
| OFile (bs : list N)
| OClosed.                                                            (* a file after its with statement *)

Record hst := HSt { hloc : list (string * hval); hout : list event; hglob : list (string * string * hval); heap : list obj }.
Inductive hres (A : Type) := HOk (a : A) (s : hst) | HRaise (e : exc) (s : hst) | HStuck (why : string).
Arguments HOk {A}. Arguments HRaise {A}. Arguments HStuck {A}.
Definition hbind {A B} (r : hres A) (f : A -> hst -> hres B) : hres B :=
  match r with HOk a s => f a s | HRaise e s => HRaise e s | HStuck w => HStuck w end.
Definition hsome {A B} (why : string) (o : option A) (k : A -> hres B) : hres B := match o with Some a => k a | None => HStuck why end.

Fixpoint hget_glob (m x : string) (g : list (string * string * hval)) : option hval :=
  match g with [] => None | (m', y, v) :: g' => if String.eqb m m' && String.eqb x y then Some v else hget_glob m x g' end.
Fixpoint hset_glob (m x : string) (v : hval) (g : list (string * string * hval)) : list (string * string * hval) :=
  match g with
  | [] => [(m, x, v)]
  | (m', y, w) :: g' => if String.eqb m m' && String.eqb x y then (m', y, v) :: g' else (m', y, w) :: hset_glob m x v g'
  end.
Fixpoint update (n : nat) (o : obj) (h : list obj) : list obj :=
  match h, n with [], _ => [] | _ :: h', 0 => o :: h' | x :: h', S n' => x :: update n' o h' end.
Definition hbind_local (x : string) (w : hval) (s : hst) : hst := HSt (set x w (hloc s)) (hout s) (hglob s) (heap s).
Definition hdrop_local (x : string) (s : hst) : hst := HSt (unset x (hloc s)) (hout s) (hglob s) (heap s).
Definition hemit (ev : event) (s : hst) : hst := HSt (hloc s) (hout s ++ [ev]) (hglob s) (heap s).
Definition hput (a : nat) (o : obj) (s : hst) : hst := HSt (hloc s) (hout s) (hglob s) (update a o (heap s)).
(* a new object *)
Definition halloc (o : obj) (s : hst) : hst := HSt (hloc s) (hout s) (hglob s) (heap s ++ [o]).
Definition hnew {A} (o : obj) (s : hst) (k : nat -> hst -> hres A) : hres A := k (List.length (heap s)) (halloc o s).
Definition at_ (s : hst) (a : nat) : option obj := nth_error (heap s) a.

(* ---- operations on values ---- *)
Fixpoint hstrs (l : list hval) : option (list str) :=
  match l with [] => Some [] | HStr s :: l' => option_map (cons s) (hstrs l') | _ => None end.
Definition hshow (w : hval) : option str :=
  match w with
  | HStr s => Some s
  | HInt z => Some (str_of_Z z)
  | HList l => option_map repr_list (hstrs l)
  | HExc e => e_text e
  | HOther t => Some t
  | _ => None
  end.
Fixpoint hshow_all (l : list hval) : option (list str) :=
  match l with [] => Some [] | v :: l' => match hshow v, hshow_all l' with Some s, Some r => Some (s :: r) | _, _ => None end end.
Definition hformat_one (spec : string) (v : hval) : option str :=
  if String.eqb spec "" then hshow v
  else match v with
       | HFloat x => if String.eqb spec ":.1f" then Some (fmt_fixed 1 x) else if String.eqb spec ":.2f" then Some (fmt_fixed 2 x) else None
       | HInt z => if String.eqb spec ":03" then Some (fmt03 z) else None
       | _ => None
       end.
Fixpoint hformat_pieces (ps : list piece) (vs : list hval) : option (list str) :=
  match ps, vs with
  | [], [] => Some []
  | PText t :: ps', _ => option_map (cons (lit t)) (hformat_pieces ps' vs)
  | PHole spec :: ps', v :: vs' =>
      match hformat_one spec v, hformat_pieces ps' vs' with Some s, Some r => Some (s :: r) | _, _ => None end
  | _, _ => None
  end.
Definition hformat (t : string) (vs : list hval) : option str := option_map cat (hformat_pieces (pieces t "") vs).
Definition htruth (s : hst) (w : hval) : option bool :=
  match w with
  | HNone => Some false
  | HBool b => Some b
  | HInt z => Some (negb (Z.eqb z 0))
  | HStr [] | HList [] | HTuple [] => Some false
  | HStr _ | HList _ | HTuple _ => Some true
  | HRef a => match at_ s a with Some (OInst _ _ _) => Some true | _ => None end
  | _ => None
  end.
Definition heq (s : hst) (a b : hval) : option bool :=
  match a, b with
  | HStr x, HStr y => Some (str_eqb x y)
  | HInt x, HInt y => Some (Z.eqb x y)
  | HBool x, HBool y => Some (Bool.eqb x y)
  | HRef r, HInt _ => match at_ s r with Some (OInst _ _ _) => Some false | _ => None end
  | _, _ => None
  end.
Definition his (a b : hval) : option bool := match a, b with HBool x, HBool y => Some (Bool.eqb x y) | _, HBool _ => Some false | _, _ => None end.
Fixpoint hin_list (x : str) (l : list hval) : option bool :=
  match l with [] => Some false | HStr y :: l' => if str_eqb x y then Some true else hin_list x l' | _ => None end.
Definition hin (s : hst) (a b : hval) : option bool :=
  match a, b with
  | HStr x, HStr y => Some (contains y x)
  | HStr x, HRef r => match at_ s r with Some (ODict _ items) => Some (match assoc x items with Some _ => true | None => false end) | _ => None end
  | HStr x, HList l => hin_list x l
  | _, _ => None
  end.
Definition hcompare (s : hst) (op : cmpop) (a b : hval) : option bool :=
  match op with
  | CmpEq => heq s a b
  | CmpNe => option_map negb (heq s a b)
  | CmpGt => match a, b with HInt x, HInt y => Some (Z.gtb x y) | _, _ => None end
  | CmpGe => match a, b with HInt x, HInt y => Some (Z.geb x y) | _, _ => None end
  | CmpIs => his a b
  | CmpIn => hin s a b
  | CmpNotIn => option_map negb (hin s a b)
  end.
Definition hbinary (op : binop) (a b : hval) : option hval :=
  match op, a, b with
  | OpAdd, HStr x, HStr y => Some (HStr (x ++ y))
  | OpAdd, HInt x, HInt y => Some (HInt (x + y))
  | OpSub, HInt x, HInt y => Some (HInt (x - y))
  | OpMul, HInt x, HInt y => Some (HInt (x * y))
  | OpDiv, HFloat x, HInt y => if Z.gtb y 0 then Some (HFloat (fl_div x y)) else None
  | _, _, _ => None
  end.
Fixpoint hconst (e : expr) : option hval :=
  match e with
  | EStr s => Some (HStr (lit s))
  | EInt z => Some (HInt z)
  | EBool b => Some (HBool b)
  | ENone => Some HNone
  | EList l => option_map HList ((fix consts (l : list expr) := match l with
      | [] => Some []
      | e :: l' => match hconst e, consts l' with Some v, Some vs => Some (v :: vs) | _, _ => None end end) l)
  | _ => None
  end.
Fixpoint hfind_const (b : list stmt) (a : string) : option hval :=
  match b with
  | [] => None
  | SAssign (EName x) e :: b' => if String.eqb a x then hconst e else hfind_const b' a
  | _ :: b' => hfind_const b' a
  end.
Definition hto_dval (v : hval) : option dval :=
  match v with HStr s => Some (DStr s) | HFloat x => Some (DFloat x) | HNone => Some DNone | _ => None end.
Fixpoint hstr_items (l : list (str * hval)) : option (list (str * str)) :=
  match l with [] => Some [] | (k, HStr v) :: l' => option_map (cons (k, v)) (hstr_items l') | _ => None end.
Fixpoint hall_true (l : list hval) : option bool :=
  match l with [] => Some true | HBool b :: l' => if b then hall_true l' else Some false | _ => None end.
Fixpoint hmap_contains (s : str) (l : list hval) : option (list hval) :=
  match l with [] => Some [] | HStr p :: l' => option_map (cons (HBool (contains s p))) (hmap_contains s l') | _ => None end.

(* what a statement ends with *)
Inductive flow := Next | Return (w : hval) | Continue.
Definition hfor (step : hval -> hst -> hres flow) :=
  fix loop (ws : list hval) (s : hst) : hres flow :=
    match ws with
    | [] => HOk Next s
    | w :: ws' => hbind (step w s) (fun f s => match f with Return r => HOk (Return r) s | Next | Continue => loop ws' s end)
    end.

Section Interpreter.
Variable prog : list (string * pymodule).
Variable files : disk.

Definition himport_from (m n : string) : option hval :=
  match get m prog with
  | None => Some (HPrim m n)
  | Some b => match find_def b n with
              | Some _ => Some (HFun m n)
              | None => match find_class b n with Some _ => Some (HClass m n) | None => None end
              end
  end.
Fixpoint hstatic (m : string) (b : list stmt) (x : string) : option hval :=
  match b with
  | [] => None
  | SDef f _ _ :: b' => if String.eqb x f then Some (HFun m f) else hstatic m b' x
  | SClass c _ :: b' => if String.eqb x c then Some (HClass m c) else hstatic m b' x
  | SImport n y :: b' => if String.eqb x y then Some (HMod n) else hstatic m b' x
  | SFrom n f y :: b' => if String.eqb x y then himport_from n f else hstatic m b' x
  | _ :: b' => hstatic m b' x
  end.
Definition hglobal (m x : string) (s : hst) : option hval :=
  match hstatic m (module_body prog m) x with
  | Some v => Some v
  | None =>
      match hget_glob m x (hglob s) with
      | Some v => Some v
      | None => if existsb (String.eqb x) builtins then Some (HPrim "builtins" x) else None
      end
  end.
Definition hmod_attr (m a : string) (s : hst) : option hval :=
  match get m prog with
  | Some b => match hstatic m b a with Some v => Some v | None => hget_glob m a (hglob s) end
  | None =>
      if String.eqb m "os" && String.eqb a "path" then Some (HMod "os.path")
      else if String.eqb m "string" && String.eqb a "ascii_uppercase" then Some (HStr uppercase)
      else Some (HPrim m a)
  end.
Definition hinst_attr (m c : string) (attrs : list (string * hval)) (a : string) : option hval :=
  match get a attrs with Some v => Some v | None => hfind_const (class_body prog m c) a end.
Definition hgetattr (v : hval) (a : string) (s : hst) : option hval :=
  match v with
  | HMod m => hmod_attr m a s
  | HRef r => match at_ s r with Some (OInst m c attrs) => hinst_attr m c attrs a | _ => None end
  | HStr t => if String.eqb a "__contains__" then Some (HContains t) else None
  | HEntry n => if String.eqb a "name" then Some (HStr n) else None
  | _ => None
  end.

(* ---- Python's library ---- *)
Definition hprim (m f : string) (args : list hval) (kws : list (string * hval)) (s : hst) : hres hval :=
  let is n g := String.eqb m n && String.eqb f g in
  let new o := hnew o s (fun a s => HOk (HRef a) s) in
  match kws with
  | [] =>
      if is "builtins" "print" then
        match args with
        | [HStr t] => HOk HNone (hemit (EvPrint t) s)
        | [HRef a] => match at_ s a with Some (OTable true rows) => HOk HNone (hemit (EvTable rows) s) | _ => HStuck "print" end
        | [HColored c t] => HOk HNone (hemit (EvColored c t) s)
        | _ => HStuck "print"
        end
      else if is "builtins" "len" then
        match args with [HStr t] => HOk (HInt (Z.of_nat (List.length t))) s | _ => HStuck "len" end
      else if is "builtins" "int" then
        match args with
        | [HStr t] => match py_int t with
                      | Some z => HOk (HInt z) s
                      | None => HRaise (Exc ValueError (Some (lit "invalid literal for int() with base 10: " ++ repr_str t))) s
                      end
        | _ => HStuck "int"
        end
      else if is "builtins" "float" then
        match args with
        | [HStr t] => match py_float t with Some x => HOk (HFloat x) s | None => HRaise (Exc ValueError None) s end
        | _ => HStuck "float"
        end
      else if is "builtins" "str" then
        match args with [v] => match hshow v with Some t => HOk (HStr t) s | None => HStuck "str" end | _ => HStuck "str" end
      else if is "builtins" "exit" then
        match args with [] => HRaise (Exc SystemExit None) s | _ => HStuck "exit" end
      else if is "builtins" "ValueError" then
        HOk (HExc (Exc ValueError (match args with [HStr t] => Some t | _ => None end))) s
      else if is "builtins" "isinstance" then
        match args with
        | [v; HPrim "builtins" "str"] => HOk (HBool (match v with HStr _ => true | _ => false end)) s
        | [v; HPrim "builtins" "list"] => HOk (HBool (match v with HList _ => true | _ => false end)) s
        | _ => HStuck "isinstance"
        end
      else if is "builtins" "hasattr" then
        match args with
        | [HRef r; HStr a] =>
            match at_ s r with
            | Some (OInst m c attrs) =>
                (* the only names asked for *)
                if str_eqb a (lit "cont_idx") then HOk (HBool (match hinst_attr m c attrs "cont_idx" with Some _ => true | None => false end)) s
                else if str_eqb a (lit "app_idx") then HOk (HBool (match hinst_attr m c attrs "app_idx" with Some _ => true | None => false end)) s
                else HStuck "hasattr"
            | _ => HStuck "hasattr"
            end
        | _ => HStuck "hasattr"
        end
      else if is "builtins" "all" then
        match args with [HList l] => match hall_true l with Some b => HOk (HBool b) s | None => HStuck "all" end | _ => HStuck "all" end
      else if is "builtins" "map" then
        match args with
        | [HContains t; HList l] => match hmap_contains t l with Some r => HOk (HList r) s | None => HStuck "map" end
        | _ => HStuck "map"
        end
      else if is "builtins" "open" then
        match args with
        | [HStr p] => match contents files p with Ok bs => new (OFile bs) | Err e => HRaise (Exc e None) s end
        | _ => HStuck "open"
        end
      else if is "collections" "defaultdict" then
        match args with [HFun n g] => new (ODict (Some (HFun n g)) []) | _ => HStuck "defaultdict" end
      else if is "io" "StringIO" then
        match args with [] => new (OIO []) | _ => HStuck "StringIO" end
      else if is "json" "dumps" then
        match args with
        | [HRef a] =>
            match at_ s a with
            | Some (ODict None items) => match hstr_items items with Some d => HOk (HStr (dumps (py_dict d))) s | None => HStuck "dumps" end
            | _ => HStuck "dumps"
            end
        | _ => HStuck "dumps"
        end
      else if is "termcolor" "colored" then
        match args with [HStr t; HStr c] => HOk (HColored c t) s | _ => HStuck "colored" end
      else if is "os" "scandir" then
        match args with
        | [HStr p] => match entries files p with Ok ns => HOk (HList (map HEntry ns)) s | Err e => HRaise (Exc e None) s end
        | _ => HStuck "scandir"
        end
      else if is "os.path" "join" then
        match args with [HStr p; HStr n] => HOk (HStr (path_join p n)) s | _ => HStuck "join" end
      else HStuck f
  | [("field_names", HList l)] =>
      if is "prettytable" "PrettyTable" then
        match args, hstrs l with
        | [], Some names => if same_strs names table_header then new (OTable false []) else HStuck "PrettyTable"
        | _, _ => HStuck "PrettyTable"
        end
      else HStuck f
  | [("sort_keys", HBool true); ("indent", HInt 4); ("separators", HTuple [HStr a; HStr b])] =>
      if is "json" "dumps" then
        match args with
        | [HRef r] =>
            match at_ s r with
            | Some (ODict None items) =>
                match hstr_items items with
                | Some d => if str_eqb a (lit ",") && str_eqb b (lit ": ") then HOk (HStr (dumps_pretty (py_dict d))) s else HStuck "dumps"
                | None => HStuck "dumps"
                end
            | _ => HStuck "dumps"
            end
        | _ => HStuck "dumps"
        end
      else HStuck f
  | _ => HStuck f
  end.

Section Calls.
(* running a function: module, parameters, body, arguments *)
Variable run : string -> list (string * option expr) -> list stmt -> list hval -> hst -> hres hval.

Definition hcall_value (f : hval) (args : list hval) (kws : list (string * hval)) (s : hst) : hres hval :=
  match f with
  | HFun m g =>
      match kws, find_def (module_body prog m) g with
      | [], Some (ps, body) => run m ps body args s
      | _, _ => HStuck g
      end
  | HClass m c =>
      match kws, find_def (class_body prog m c) "__init__" with
      | [], Some (ps, body) => hnew (OInst m c []) s (fun a s => hbind (run m ps body (HRef a :: args) s) (fun _ s => HOk (HRef a) s))
      | [], None => match args with [] => hnew (OInst m c []) s (fun a s => HOk (HRef a) s) | _ => HStuck c end
      | _, _ => HStuck c
      end
  | HPrim m g => hprim m g args kws s
  | _ => HStuck "call"
  end.

Definition hcall_method (w : hval) (a : string) (args : list hval) (s : hst) : hres hval :=
  match w with
  | HStr t =>
      if String.eqb a "strip" then match args with [] => HOk (HStr (strip t)) s | _ => HStuck a end
      else if String.eqb a "isalnum" then match args with [] => HOk (HBool (isalnum t)) s | _ => HStuck a end
      else if String.eqb a "isalpha" then match args with [] => HOk (HBool (isalpha t)) s | _ => HStuck a end
      else if String.eqb a "isnumeric" then match args with [] => HOk (HBool (isnumeric t)) s | _ => HStuck a end
      else if String.eqb a "endswith" then match args with [HStr p] => HOk (HBool (endswith t p)) s | _ => HStuck a end
      else if String.eqb a "startswith" then
        match args with [HTuple [HStr p; HStr q]] => HOk (HBool (startswith t p || startswith t q)) s | _ => HStuck a end
      else if String.eqb a "lstrip" then
        match args with [HStr p] => if str_eqb p (lit "0") then HOk (HStr (lstrip0 t)) s else HStuck a | _ => HStuck a end
      else if String.eqb a "index" then
        match args with
        | [HStr p] => match find_sub t p 0 with Some i => HOk (HInt i) s | None => HRaise (Exc ValueError (Some (lit "substring not found"))) s end
        | _ => HStuck a
        end
      else HStuck a
  | HRef r =>
      match at_ s r with
      | Some (OIO t) =>
          if String.eqb a "write" then match args with [HStr p] => HOk (HInt (Z.of_nat (List.length p))) (hput r (OIO (t ++ p)) s) | _ => HStuck a end
          else if String.eqb a "getvalue" then match args with [] => HOk (HStr t) s | _ => HStuck a end
          else HStuck a
      | Some (OTable l rows) =>
          if String.eqb a "add_row" then
            match args with
            | [HList [HStr n; HStr q; d]] => match hto_dval d with Some d' => HOk HNone (hput r (OTable l (rows ++ [(n, q, d')])) s) | None => HStuck a end
            | _ => HStuck a
            end
          else if String.eqb a "get_string" then match args with [] => if l then HOk (HTableText rows) s else HStuck a | _ => HStuck a end
          else HStuck a
      | Some (ODict None items) =>
          if String.eqb a "update" then
            match args with
            | [HRef q] => match at_ s q with Some (ODict None new) => HOk HNone (hput r (ODict None (new ++ items)) s) | _ => HStuck a end
            | _ => HStuck a
            end
          else HStuck a
      | Some (OFile bs) =>
          if String.eqb a "readlines" then
            match args with
            | [] => match decode_utf8 bs with
                    | Ok t => HOk (HList (map HStr (readlines t))) (hput r (OFile []) s)
                    | Err e => HRaise (Exc e None) s
                    end
            | _ => HStuck a
            end
          else HStuck a
      | Some (OInst m c attrs) =>
          match get a attrs with
          | Some f => hcall_value f args [] s
          | None =>
              match find_def (class_body prog m c) a with
              | Some (ps, body) => run m ps body (w :: args) s
              | None => HStuck a
              end
          end
      | _ => HStuck a
      end
  | _ => HStuck a
  end.

Definition hget_item (c i : hval) (s : hst) : hres hval :=
  match c, i with
  | HStr t, HInt z =>
      if Z.geb z 0 then
        match index t (Z.to_nat z) with
        | Ok r => HOk (HStr r) s
        | Err e => HRaise (Exc e (Some (lit "string index out of range"))) s
        end
      else HStuck "index"
  | HRef r, HStr key =>
      match at_ s r with
      | Some (ODict f items) =>
          match assoc key items with
          | Some v => HOk v s
          | None =>
              match f with
              | Some g =>
                  hbind (hcall_value g [] [] s) (fun v s =>
                    match at_ s r with Some (ODict f items) => HOk v (hput r (ODict f ((key, v) :: items)) s) | _ => HStuck "index" end)
              | None => HStuck "KeyError"
              end
          end
      | _ => HStuck "index"
      end
  | _, _ => HStuck "index"
  end.

Definition heval_list (ev : expr -> hst -> hres hval) :=
  fix elems (es : list expr) (s : hst) : hres (list hval) :=
    match es with [] => HOk [] s | e :: es' => hbind (ev e s) (fun v s => hbind (elems es' s) (fun vs s => HOk (v :: vs) s)) end.
Definition heval_kws (ev : expr -> hst -> hres hval) :=
  fix elems (es : list (string * expr)) (s : hst) : hres (list (string * hval)) :=
    match es with [] => HOk [] s | (a, e) :: es' => hbind (ev e s) (fun v s => hbind (elems es' s) (fun vs s => HOk ((a, v) :: vs) s)) end.

Section Function.
(* the module, and the local names of the function *)
Variable m : string.
Variable lv : list string.
Definition hname (x : string) (s : hst) : option hval := if existsb (String.eqb x) lv then get x (hloc s) else hglobal m x s.
Fixpoint heval (e : expr) (s : hst) {struct e} : hres hval :=
  let call f args kws s :=
    hbind (heval_list heval args s) (fun vs s => hbind (heval_kws heval kws s) (fun ks s => hcall_value f vs ks s)) in
  match e with
  | EStr t => HOk (HStr (lit t)) s
  | EInt z => HOk (HInt z) s
  | EBool b => HOk (HBool b) s
  | ENone => HOk HNone s
  | EName x => hsome x (hname x s) (fun w => HOk w s)
  | EAttr e a => hbind (heval e s) (fun w s => hsome a (hgetattr w a s) (fun r => HOk r s))
  | EItem c i => hbind (heval c s) (fun cw s => hbind (heval i s) (fun iw s => hget_item cw iw s))
  | ESlice c lo hi =>
      hbind (heval c s) (fun cw s =>
        let bound (o : option expr) s : hres (option Z) :=
          match o with None => HOk None s | Some e => hbind (heval e s) (fun v s => match v with HInt z => HOk (Some z) s | _ => HStuck "slice" end) end in
        hbind (bound lo s) (fun a s => hbind (bound hi s) (fun b s =>
          match cw with HStr t => hsome "slice" (py_slice t a b) (fun r => HOk (HStr r) s) | _ => HStuck "slice" end)))
  | ECall f args kws =>
      match f with
      | EAttr (EStr t) a =>
          if String.eqb a "format" then hbind (heval_list heval args s) (fun vs s => hsome t (hformat t vs) (fun r => HOk (HStr r) s)) else HStuck a
      | EAttr e a =>
          hbind (heval e s) (fun w s =>
            match w with
            | HMod n => hsome a (hmod_attr n a s) (fun g => call g args kws s)
            | _ => match kws with [] => hbind (heval_list heval args s) (fun vs s => hcall_method w a vs s) | _ => HStuck a end
            end)
      | _ => hbind (heval f s) (fun g s => call g args kws s)
      end
  | EBin op a b => hbind (heval a s) (fun x s => hbind (heval b s) (fun y s => hsome "operator" (hbinary op x y) (fun r => HOk r s)))
  | ENeg a => hbind (heval a s) (fun x s => match x with HInt z => HOk (HInt (- z)) s | _ => HStuck "-" end)
  | ENot a => hbind (heval a s) (fun x s => hsome "not" (htruth s x) (fun b => HOk (HBool (negb b)) s))
  | EAnd a b => hbind (heval a s) (fun x s => hsome "and" (htruth s x) (fun t => if t then heval b s else HOk x s))
  | EOr a b => hbind (heval a s) (fun x s => hsome "or" (htruth s x) (fun t => if t then HOk x s else heval b s))
  | ECmp op a b => hbind (heval a s) (fun x s => hbind (heval b s) (fun y s => hsome "comparison" (hcompare s op x y) (fun r => HOk (HBool r) s)))
  | EIfExp c a b => hbind (heval c s) (fun x s => hsome "if" (htruth s x) (fun t => if t then heval a s else heval b s))
  | EList l => hbind (heval_list heval l s) (fun vs s => HOk (HList vs) s)
  | ETuple l => hbind (heval_list heval l s) (fun vs s => HOk (HTuple vs) s)
  | EDict l =>
      hbind ((fix pairs (es : list (expr * expr)) (acc : list (str * hval)) (s : hst) : hres (list (str * hval)) :=
        match es with
        | [] => HOk acc s
        | (a, b) :: es' => hbind (heval a s) (fun x s => hbind (heval b s) (fun y s => match x with HStr t => pairs es' ((t, y) :: acc) s | _ => HStuck "key" end))
        end) l [] s) (fun items s => hnew (ODict None items) s (fun a s => HOk (HRef a) s))
  | EFString ps => hbind (heval_list heval ps s) (fun vs s => hsome "f-string" (hshow_all vs) (fun ts => HOk (HStr (cat ts)) s))
  end.

Definition hexec_list (ex : stmt -> hst -> hres flow) :=
  fix block (cs : list stmt) (s : hst) : hres flow :=
    match cs with [] => HOk Next s | c :: cs' => hbind (ex c s) (fun f s => match f with Next => block cs' s | _ => HOk f s end) end.
(* done after r, however it ends *)
Definition finally {A} (r : hres A) (f : hst -> hst) : hres A :=
  match r with HOk a s => HOk a (f s) | HRaise e s => HRaise e (f s) | HStuck w => HStuck w end.
Fixpoint hexec (top : bool) (c : stmt) (s : hst) {struct c} : hres flow :=
  let block := hexec_list (hexec top) in
  let assign x w s : hst := if top then HSt (hloc s) (hout s) (hset_glob m x w (hglob s)) (heap s) else hbind_local x w s in
  match c with
  | SExpr e => hbind (heval e s) (fun _ s => HOk Next s)
  | SAssign (EName x) e => hbind (heval e s) (fun w s => HOk Next (assign x w s))
  | SAssign (EAttr t a) e =>
      hbind (heval e s) (fun w s => hbind (heval t s) (fun r s =>
        match r with
        | HRef r =>
            match at_ s r with
            | Some (OInst n c attrs) => HOk Next (hput r (OInst n c (set a w attrs)) s)
            | Some (OTable _ rows) =>
                match w with
                | HStr t => if String.eqb a "align" && str_eqb t str_l then HOk Next (hput r (OTable true rows) s) else HStuck a
                | _ => HStuck a
                end
            | _ => HStuck a
            end
        | _ => HStuck a
        end))
  | SAssign (EItem t i) e =>
      hbind (heval e s) (fun w s => hbind (heval t s) (fun r s => hbind (heval i s) (fun iw s =>
        match r, iw with
        | HRef r, HStr key => match at_ s r with Some (ODict f items) => HOk Next (hput r (ODict f ((key, w) :: items)) s) | _ => HStuck "item" end
        | _, _ => HStuck "item"
        end)))
  | SAssign _ _ => HStuck "assignment"
  | SAug (EName x) op e =>
      hbind (heval (EName x) s) (fun a s => hbind (heval e s) (fun b s => hsome "operator" (hbinary op a b) (fun w => HOk Next (assign x w s))))
  | SAug _ _ _ => HStuck "assignment"
  | SReturn None => HOk (Return HNone) s
  | SReturn (Some e) => hbind (heval e s) (fun w s => HOk (Return w) s)
  | SRaise e => hbind (heval e s) (fun w s => match w with HExc x => HRaise x s | _ => HStuck "raise" end)
  | SIf c a b => hbind (heval c s) (fun w s => hsome "if" (htruth s w) (fun t => if t then block a s else block b s))
  | SMatch e cases =>
      hbind (heval e s) (fun w s =>
        (fix try_cases (cs : list (pattern * list stmt)) : hres flow :=
          match cs with
          | [] => HOk Next s
          | (PWild, b) :: _ => block b s
          | (PValue p, b) :: cs' =>
              hsome "case" (hconst p) (fun pw => hsome "case" (heq s w pw) (fun t => if t then block b s else try_cases cs'))
          end) cases)
  | SFor x e b =>
      hbind (heval e s) (fun w s => match w with HList ws => hfor (fun w s => block b (assign x w s)) ws s | _ => HStuck "for" end)
  | SWith e x b =>
      hbind (heval e s) (fun w s =>
        match w with
        | HRef r =>
            match at_ s r with
            | Some (OFile _) => finally (block b (assign x w s)) (hput r OClosed)
            | _ => HStuck "with"
            end
        | _ => HStuck "with"
        end)
  | STry b excs x h =>
      match block b s with
      | HRaise ex s => if catches excs ex then finally (block h (assign x (HExc ex) s)) (hdrop_local x) else HRaise ex s
      | r => r
      end
  | SContinue => HOk Continue s
  | SDef _ _ _ | SClass _ _ | SImport _ _ | SFrom _ _ _ => if top then HOk Next s else HStuck "definition"
  end.
Definition hexec_block (top : bool) (cs : list stmt) (s : hst) : hres flow := hexec_list (hexec top) cs s.
End Function.
End Calls.

Fixpoint hbind_params (ps : list (string * option expr)) (args : list hval) : option (list (string * hval)) :=
  match ps, args with
  | [], [] => Some []
  | (x, _) :: ps', v :: args' => option_map (cons (x, v)) (hbind_params ps' args')
  | (x, Some d) :: ps', [] => match hconst d with Some v => option_map (cons (x, v)) (hbind_params ps' []) | None => None end
  | _, _ => None
  end.
Definition local_names (ps : list (string * option expr)) (body : list stmt) : list string := map fst ps ++ flat_map assigned body.
(* fuel bounds the depth of calls; the caller's variables come back afterwards *)
Fixpoint hrun (fuel : nat) (m : string) (ps : list (string * option expr)) (body : list stmt) (args : list hval) (s : hst) {struct fuel} : hres hval :=
  match fuel with
  | O => HStuck "depth of calls"
  | S n =>
      match hbind_params ps args with
      | None => HStuck "arguments"
      | Some l =>
          let back s' := HSt (hloc s) (hout s') (hglob s') (heap s') in
          match hexec_block (hrun n) m (local_names ps body) false body (HSt l (hout s) (hglob s) (heap s)) with
          | HOk (Return w) s' => HOk w (back s')
          | HOk Next s' => HOk HNone (back s')
          | HOk Continue _ => HStuck "continue"
          | HRaise e s' => HRaise e (back s')
          | HStuck w => HStuck w
          end
      end
  end.
(* import: the statements of the modules, in order *)
Fixpoint himport_all (fuel : nat) (ms : list (string * pymodule)) (s : hst) : hres unit :=
  match ms with
  | [] => HOk tt s
  | (m, b) :: ms' =>
      match hexec_block (hrun fuel) m [] true b s with
      | HOk Next s => himport_all fuel ms' s
      | HOk _ _ => HStuck "return"
      | HRaise e s => HRaise e s
      | HStuck w => HStuck w
      end
  end.
End Interpreter.
