(* The module functions, /repo/src/arinc424/__init__.py. *)
From Coq Require Import List String NArith ZArith Bool.
From Verif Require Import PyBase PyRepr Decoder Layouts Record.
Import ListNotations.
Open Scope string_scope.
Open Scope list_scope.
Local Open Scope nat_scope.

(* __init__.py:6-15 *)
Definition parse (line : str) (output : bool) : M bool :=
  match read new_record line with
  | (o, _, Err e) => (o, Err e)
  | (o, r, Ok true) => let '(o', d) := decode r output in
                       (o ++ o', match d with Ok _ => Ok true | Err e => Err e end)
  | (o, _, Ok false) => (o, Ok false)
  end.

(* ---- the file system, as far as the library looks at it ---- *)
(* open_text p: the text of the file at p before newline translation, or OSError (for files as bytes
   see Utf8.v).
   scandir p: the names os.scandir(p) yields, in its order, or OSError. *)
Record world := World {
  open_text : str -> result str;
  scandir : str -> result (list str)
}.

(* open(...) in text mode with newline=None: '\r\n' and '\r' are read as '\n' *)
Fixpoint universal_newlines (t : str) : str :=
  match t with
  | [] => []
  | c :: t' =>
      if (c =? 13)%N then
        match t' with
        | d :: t'' => if (d =? 10)%N then 10%N :: universal_newlines t'' else 10%N :: universal_newlines t'
        | [] => [10%N]
        end
      else c :: universal_newlines t'
  end.
(* f.readlines(): split after each '\n', which stays; no empty last line *)
Fixpoint lines_keep (t : str) : list str :=
  match t with
  | [] => []
  | c :: t' =>
      if (c =? 10)%N then [c] :: lines_keep t'
      else match lines_keep t' with
           | [] => [[c]]
           | l :: ls => (c :: l) :: ls
           end
  end.
Definition readlines (t : str) : list str := lines_keep (universal_newlines t).

(* for line in ...: body *)
Fixpoint for_each {A} (body : A -> M unit) (l : list A) : M unit :=
  match l with
  | [] => ret tt
  | x :: l' => body x ;;; for_each body l'
  end.

(* The `filters` argument: a str, a list of str, or any other object (isinstance tests at
   __init__.py:29-34 fail and nothing is filtered), given by its str(). *)
Inductive filters := FStr (s : str) | FList (l : list str) | FOther (text : str).

(* __init__.py:29-34 *)
Definition passes (fl : filters) (raw : str) : bool :=
  match fl with
  | FStr s => contains raw s
  | FList l => forallb (contains raw) l
  | FOther _ => true
  end.

(* __init__.py:25-36: the loop, count threaded through *)
Fixpoint search_lines (fl : filters) (count : nat) (ls : list str) : M nat :=
  match ls with
  | [] => ret count
  | line :: ls' =>
      match read new_record line with
      | (o, _, Err e) => (o, Err e)
      | (o, r, Ok b) =>
          (o, Ok tt) ;;;
          if negb b then search_lines fl count ls'
          else if negb (passes fl (raw r)) then search_lines fl count ls'
          else say (raw r) ;;; search_lines fl (count + 1) ls'
      end
  end.

(* f"{filters}" *)
Definition filters_text (fl : filters) : str :=
  match fl with
  | FStr s => s
  | FList l => repr_list l
  | FOther t => t
  end.

(* __init__.py:37 *)
Definition found (count : nat) (fl : filters) : event :=
  EvColored (if Nat.eqb count 0 then lit "red" else lit "green")
            (lit "Found " ++ str_of_Z (Z.of_nat count) ++ lit " records that contain " ++ filters_text fl).

(* __init__.py:18-37 *)
Definition search (w : world) (file : str) (fl : filters) : M unit :=
  t <- lift (open_text w file) ;;
  count <- search_lines fl 0 (readlines t) ;;
  emit (found count fl).

(* __init__.py:40-46 *)
Definition read_file (w : world) (path : str) (output : bool) : M unit :=
  t <- lift (open_text w path) ;;
  for_each (fun line => parse line output ;;; ret tt) (readlines t).

(* os.path.join(path, name) on POSIX, for an entry name (never absolute) *)
Definition path_join (path name : str) : str :=
  match path with
  | [] => name
  | _ => if endswith path (lit "/") then path ++ name else path ++ lit "/" ++ name
  end.

(* __init__.py:49-54.  Simplification: os.scandir yields lazily; the names are taken first. *)
Definition read_folder (w : world) (path : str) : M unit :=
  names <- lift (scandir w path) ;;
  for_each (fun name => read_file w (path_join path name) true) names.
