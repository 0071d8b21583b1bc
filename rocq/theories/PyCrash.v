(* The interpreter of PyHeap.v for any library of functions, and a library whose print fails.

   The definitions are those of PyHeap.v from hcall_value on, with the library as a parameter (prim).  That they do
   the same with the library of PyHeap.v, until print fails, is proved in CrashProps.v. *)
From Coq Require Import List String Ascii NArith ZArith Bool.
From Verif Require Import PyBase PyRepr Json Record Api Utf8 PySyntax PyEval SrcCheck PyHeap.
Import ListNotations.
Open Scope string_scope.
Open Scope list_scope.
Local Open Scope nat_scope.

Section Interpreter.
Variable prog : list (string * pymodule).
Variable prim : string -> string -> list hval -> list (string * hval) -> hst -> hres hval.

Section Calls.
(* running a function: module, parameters, body, arguments *)
Variable run : string -> list (string * option expr) -> list stmt -> list hval -> hst -> hres hval.

Definition gcall_value (f : hval) (args : list hval) (kws : list (string * hval)) (s : hst) : hres hval :=
  match f with
  | HFun m g =>
      match kws, find_def (module_body prog m) g with
      | [], Some (ps, body) => run m ps body args s
      | _, _ => HStuck g
      end
  | HClass m c =>
      match kws, find_def (class_body prog m c) "__init__" with
      | [], Some (ps, body) => hnew (OInst m c []) s (fun a s => hbind (run m ps body (HRef a :: args) s) (fun _ s => HOk (HRef a) s))
      | [], None => match args with [] => hnew (OInst m c []) s (fun a s => HOk (HRef a) s) | _ => HStuck c end
      | _, _ => HStuck c
      end
  | HPrim m g => prim m g args kws s
  | _ => HStuck "call"
  end.

Definition gcall_method (w : hval) (a : string) (args : list hval) (s : hst) : hres hval :=
  match w with
  | HStr t =>
      if String.eqb a "strip" then match args with [] => HOk (HStr (strip t)) s | _ => HStuck a end
      else if String.eqb a "isalnum" then match args with [] => HOk (HBool (isalnum t)) s | _ => HStuck a end
      else if String.eqb a "isalpha" then match args with [] => HOk (HBool (isalpha t)) s | _ => HStuck a end
      else if String.eqb a "isnumeric" then match args with [] => HOk (HBool (isnumeric t)) s | _ => HStuck a end
      else if String.eqb a "endswith" then match args with [HStr p] => HOk (HBool (endswith t p)) s | _ => HStuck a end
      else if String.eqb a "startswith" then
        match args with [HTuple [HStr p; HStr q]] => HOk (HBool (startswith t p || startswith t q)) s | _ => HStuck a end
      else if String.eqb a "lstrip" then
        match args with [HStr p] => if str_eqb p (lit "0") then HOk (HStr (lstrip0 t)) s else HStuck a | _ => HStuck a end
      else if String.eqb a "index" then
        match args with
        | [HStr p] => match find_sub t p 0 with Some i => HOk (HInt i) s | None => HRaise (Exc ValueError (Some (lit "substring not found"))) s end
        | _ => HStuck a
        end
      else HStuck a
  | HRef r =>
      match at_ s r with
      | Some (OIO t) =>
          if String.eqb a "write" then match args with [HStr p] => HOk (HInt (Z.of_nat (List.length p))) (hput r (OIO (t ++ p)) s) | _ => HStuck a end
          else if String.eqb a "getvalue" then match args with [] => HOk (HStr t) s | _ => HStuck a end
          else HStuck a
      | Some (OTable l rows) =>
          if String.eqb a "add_row" then
            match args with
            | [HList [HStr n; HStr q; d]] => match hto_dval d with Some d' => HOk HNone (hput r (OTable l (rows ++ [(n, q, d')])) s) | None => HStuck a end
            | _ => HStuck a
            end
          else if String.eqb a "get_string" then match args with [] => if l then HOk (HTableText rows) s else HStuck a | _ => HStuck a end
          else HStuck a
      | Some (ODict None items) =>
          if String.eqb a "update" then
            match args with
            | [HRef q] => match at_ s q with Some (ODict None new) => HOk HNone (hput r (ODict None (new ++ items)) s) | _ => HStuck a end
            | _ => HStuck a
            end
          else HStuck a
      | Some (OFile bs) =>
          if String.eqb a "readlines" then
            match args with
            | [] => match decode_utf8 bs with
                    | Ok t => HOk (HList (map HStr (readlines t))) (hput r (OFile []) s)
                    | Err e => HRaise (Exc e None) s
                    end
            | _ => HStuck a
            end
          else HStuck a
      | Some (OInst m c attrs) =>
          match get a attrs with
          | Some f => gcall_value f args [] s
          | None =>
              match find_def (class_body prog m c) a with
              | Some (ps, body) => run m ps body (w :: args) s
              | None => HStuck a
              end
          end
      | _ => HStuck a
      end
  | _ => HStuck a
  end.

Definition gget_item (c i : hval) (s : hst) : hres hval :=
  match c, i with
  | HStr t, HInt z =>
      if Z.geb z 0 then
        match index t (Z.to_nat z) with
        | Ok r => HOk (HStr r) s
        | Err e => HRaise (Exc e (Some (lit "string index out of range"))) s
        end
      else HStuck "index"
  | HRef r, HStr key =>
      match at_ s r with
      | Some (ODict f items) =>
          match assoc key items with
          | Some v => HOk v s
          | None =>
              match f with
              | Some g =>
                  hbind (gcall_value g [] [] s) (fun v s =>
                    match at_ s r with Some (ODict f items) => HOk v (hput r (ODict f ((key, v) :: items)) s) | _ => HStuck "index" end)
              | None => HStuck "KeyError"
              end
          end
      | _ => HStuck "index"
      end
  | _, _ => HStuck "index"
  end.

Section Function.
(* the module, and the local names of the function *)
Variable m : string.
Variable lv : list string.
Fixpoint geval (e : expr) (s : hst) {struct e} : hres hval :=
  let call f args kws s :=
    hbind (heval_list geval args s) (fun vs s => hbind (heval_kws geval kws s) (fun ks s => gcall_value f vs ks s)) in
  match e with
  | EStr t => HOk (HStr (lit t)) s
  | EInt z => HOk (HInt z) s
  | EBool b => HOk (HBool b) s
  | ENone => HOk HNone s
  | EName x => hsome x (hname prog m lv x s) (fun w => HOk w s)
  | EAttr e a => hbind (geval e s) (fun w s => hsome a (hgetattr prog w a s) (fun r => HOk r s))
  | EItem c i => hbind (geval c s) (fun cw s => hbind (geval i s) (fun iw s => gget_item cw iw s))
  | ESlice c lo hi =>
      hbind (geval c s) (fun cw s =>
        let bound (o : option expr) s : hres (option Z) :=
          match o with None => HOk None s | Some e => hbind (geval e s) (fun v s => match v with HInt z => HOk (Some z) s | _ => HStuck "slice" end) end in
        hbind (bound lo s) (fun a s => hbind (bound hi s) (fun b s =>
          match cw with HStr t => hsome "slice" (py_slice t a b) (fun r => HOk (HStr r) s) | _ => HStuck "slice" end)))
  | ECall f args kws =>
      match f with
      | EAttr (EStr t) a =>
          if String.eqb a "format" then hbind (heval_list geval args s) (fun vs s => hsome t (hformat t vs) (fun r => HOk (HStr r) s)) else HStuck a
      | EAttr e a =>
          hbind (geval e s) (fun w s =>
            match w with
            | HMod n => hsome a (hmod_attr prog n a s) (fun g => call g args kws s)
            | _ => match kws with [] => hbind (heval_list geval args s) (fun vs s => gcall_method w a vs s) | _ => HStuck a end
            end)
      | _ => hbind (geval f s) (fun g s => call g args kws s)
      end
  | EBin op a b => hbind (geval a s) (fun x s => hbind (geval b s) (fun y s => hsome "operator" (hbinary op x y) (fun r => HOk r s)))
  | ENeg a => hbind (geval a s) (fun x s => match x with HInt z => HOk (HInt (- z)) s | _ => HStuck "-" end)
  | ENot a => hbind (geval a s) (fun x s => hsome "not" (htruth s x) (fun b => HOk (HBool (negb b)) s))
  | EAnd a b => hbind (geval a s) (fun x s => hsome "and" (htruth s x) (fun t => if t then geval b s else HOk x s))
  | EOr a b => hbind (geval a s) (fun x s => hsome "or" (htruth s x) (fun t => if t then HOk x s else geval b s))
  | ECmp op a b => hbind (geval a s) (fun x s => hbind (geval b s) (fun y s => hsome "comparison" (hcompare s op x y) (fun r => HOk (HBool r) s)))
  | EIfExp c a b => hbind (geval c s) (fun x s => hsome "if" (htruth s x) (fun t => if t then geval a s else geval b s))
  | EList l => hbind (heval_list geval l s) (fun vs s => HOk (HList vs) s)
  | ETuple l => hbind (heval_list geval l s) (fun vs s => HOk (HTuple vs) s)
  | EDict l =>
      hbind ((fix pairs (es : list (expr * expr)) (acc : list (str * hval)) (s : hst) : hres (list (str * hval)) :=
        match es with
        | [] => HOk acc s
        | (a, b) :: es' => hbind (geval a s) (fun x s => hbind (geval b s) (fun y s => match x with HStr t => pairs es' ((t, y) :: acc) s | _ => HStuck "key" end))
        end) l [] s) (fun items s => hnew (ODict None items) s (fun a s => HOk (HRef a) s))
  | EFString ps => hbind (heval_list geval ps s) (fun vs s => hsome "f-string" (hshow_all vs) (fun ts => HOk (HStr (cat ts)) s))
  end.

Fixpoint gexec (top : bool) (c : stmt) (s : hst) {struct c} : hres flow :=
  let block := hexec_list (gexec top) in
  let assign x w s : hst := if top then HSt (hloc s) (hout s) (hset_glob m x w (hglob s)) (heap s) else hbind_local x w s in
  match c with
  | SExpr e => hbind (geval e s) (fun _ s => HOk Next s)
  | SAssign (EName x) e => hbind (geval e s) (fun w s => HOk Next (assign x w s))
  | SAssign (EAttr t a) e =>
      hbind (geval e s) (fun w s => hbind (geval t s) (fun r s =>
        match r with
        | HRef r =>
            match at_ s r with
            | Some (OInst n c attrs) => HOk Next (hput r (OInst n c (set a w attrs)) s)
            | Some (OTable _ rows) =>
                match w with
                | HStr t => if String.eqb a "align" && str_eqb t str_l then HOk Next (hput r (OTable true rows) s) else HStuck a
                | _ => HStuck a
                end
            | _ => HStuck a
            end
        | _ => HStuck a
        end))
  | SAssign (EItem t i) e =>
      hbind (geval e s) (fun w s => hbind (geval t s) (fun r s => hbind (geval i s) (fun iw s =>
        match r, iw with
        | HRef r, HStr key => match at_ s r with Some (ODict f items) => HOk Next (hput r (ODict f ((key, w) :: items)) s) | _ => HStuck "item" end
        | _, _ => HStuck "item"
        end)))
  | SAssign _ _ => HStuck "assignment"
  | SAug (EName x) op e =>
      hbind (geval (EName x) s) (fun a s => hbind (geval e s) (fun b s => hsome "operator" (hbinary op a b) (fun w => HOk Next (assign x w s))))
  | SAug _ _ _ => HStuck "assignment"
  | SReturn None => HOk (Return HNone) s
  | SReturn (Some e) => hbind (geval e s) (fun w s => HOk (Return w) s)
  | SRaise e => hbind (geval e s) (fun w s => match w with HExc x => HRaise x s | _ => HStuck "raise" end)
  | SIf c a b => hbind (geval c s) (fun w s => hsome "if" (htruth s w) (fun t => if t then block a s else block b s))
  | SMatch e cases =>
      hbind (geval e s) (fun w s =>
        (fix try_cases (cs : list (pattern * list stmt)) : hres flow :=
          match cs with
          | [] => HOk Next s
          | (PWild, b) :: _ => block b s
          | (PValue p, b) :: cs' =>
              hsome "case" (hconst p) (fun pw => hsome "case" (heq s w pw) (fun t => if t then block b s else try_cases cs'))
          end) cases)
  | SFor x e b =>
      hbind (geval e s) (fun w s => match w with HList ws => hfor (fun w s => block b (assign x w s)) ws s | _ => HStuck "for" end)
  | SWith e x b =>
      hbind (geval e s) (fun w s =>
        match w with
        | HRef r =>
            match at_ s r with
            | Some (OFile _) => finally (block b (assign x w s)) (hput r OClosed)
            | _ => HStuck "with"
            end
        | _ => HStuck "with"
        end)
  | STry b excs x h =>
      match block b s with
      | HRaise ex s => if catches excs ex then finally (block h (assign x (HExc ex) s)) (hdrop_local x) else HRaise ex s
      | r => r
      end
  | SContinue => HOk Continue s
  | SDef _ _ _ | SClass _ _ | SImport _ _ | SFrom _ _ _ => if top then HOk Next s else HStuck "definition"
  end.
Definition gexec_block (top : bool) (cs : list stmt) (s : hst) : hres flow := hexec_list (gexec top) cs s.
End Function.
End Calls.

(* fuel bounds the depth of calls; the caller's variables come back afterwards *)
Fixpoint grun (fuel : nat) (m : string) (ps : list (string * option expr)) (body : list stmt) (args : list hval) (s : hst) {struct fuel} : hres hval :=
  match fuel with
  | O => HStuck "depth of calls"
  | S n =>
      match hbind_params ps args with
      | None => HStuck "arguments"
      | Some l =>
          let back s' := HSt (hloc s) (hout s') (hglob s') (heap s') in
          match gexec_block (grun n) m (local_names ps body) false body (HSt l (hout s) (hglob s) (heap s)) with
          | HOk (Return w) s' => HOk w (back s')
          | HOk Next s' => HOk HNone (back s')
          | HOk Continue _ => HStuck "continue"
          | HRaise e s' => HRaise e (back s')
          | HStuck w => HStuck w
          end
      end
  end.
(* import: the statements of the modules, in order *)
Fixpoint gimport_all (fuel : nat) (ms : list (string * pymodule)) (s : hst) : hres unit :=
  match ms with
  | [] => HOk tt s
  | (m, b) :: ms' =>
      match gexec_block (grun fuel) m [] true b s with
      | HOk Next s => gimport_all fuel ms' s
      | HOk _ _ => HStuck "return"
      | HRaise e s => HRaise e s
      | HStuck w => HStuck w
      end
  end.
End Interpreter.

(* a console that takes `room` prints and no more: then print raises err and nothing is shown.
   (Of a print that fails part of the text may have been shown; here nothing is.) *)
Definition failing (prog : list (string * pymodule)) (files : disk) (room : nat) (err : exc) (m f : string) (args : list hval) (kws : list (string * hval)) (s : hst) : hres hval :=
  match hprim prog files m f args kws s with
  | HOk v s' => if String.eqb m "builtins" && String.eqb f "print" && Nat.leb room (List.length (hout s)) then HRaise err s else HOk v s'
  | r => r
  end.
