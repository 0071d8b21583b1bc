(* GENERATED by tools/pyast.py from /repo/src/arinc424/__init__.py: its abstract syntax tree. *)
From Coq Require Import List String ZArith.
From Verif Require Import PySyntax.
Import ListNotations.
Local Open Scope string_scope.
Local Open Scope Z_scope.

(* src/arinc424/__init__.py:6-15 *)
Definition py_init_parse : stmt :=
  SDef "parse" [("line", None); ("output", (Some (EBool true)))]
    [SAssign (EName "r") (ECall (EName "Record") [] []);
    SIf (ECall (EAttr (EName "r") "read") [(EName "line")] [])
      [SExpr (ECall (EAttr (EName "r") "decode") [(EName "output")] []);
      SReturn (Some (EBool true))]
      [];
    SReturn (Some (EBool false))].

(* src/arinc424/__init__.py:18-37 *)
Definition py_init_search : stmt :=
  SDef "search" [("file", None); ("filters", None)]
    [SWith (ECall (EName "open") [(EName "file")] []) "f"
      [SAssign (EName "count") (EInt 0);
      SFor "line" (ECall (EAttr (EName "f") "readlines") [] [])
        [SAssign (EName "r") (ECall (EName "Record") [] []);
        SIf (ECmp CmpIs (ECall (EAttr (EName "r") "read") [(EName "line")] []) (EBool false))
          [SContinue]
          [];
        SIf (ECall (EName "isinstance") [(EName "filters"); (EName "str")] [])
          [SIf (ECmp CmpNotIn (EName "filters") (EAttr (EName "r") "raw"))
            [SContinue]
            []]
          [SIf (ECall (EName "isinstance") [(EName "filters"); (EName "list")] [])
            [SIf (ECmp CmpIs (ECall (EName "all") [(ECall (EName "map") [(EAttr (EAttr (EName "r") "raw") "__contains__"); (EName "filters")] [])] []) (EBool false))
              [SContinue]
              []]
            []];
        SExpr (ECall (EName "print") [(EAttr (EName "r") "raw")] []);
        SAssign (EName "count") (EBin OpAdd (EName "count") (EInt 1))];
      SExpr (ECall (EName "print") [(ECall (EName "colored") [(EFString [(EStr "Found "); (EName "count"); (EStr " records that contain "); (EName "filters")]); (EIfExp (EName "count") (EStr "green") (EStr "red"))] [])] [])]].

(* src/arinc424/__init__.py:40-46 *)
Definition py_init_read_file : stmt :=
  SDef "read_file" [("path", None); ("output", (Some (EBool true)))]
    [SWith (ECall (EName "open") [(EName "path")] []) "f"
      [SFor "line" (ECall (EAttr (EName "f") "readlines") [] [])
        [SExpr (ECall (EName "parse") [(EName "line"); (EName "output")] [])]]].

(* src/arinc424/__init__.py:49-54 *)
Definition py_init_read_folder : stmt :=
  SDef "read_folder" [("path", None)]
    [SFor "file" (ECall (EAttr (EName "os") "scandir") [(EName "path")] [])
      [SExpr (ECall (EName "read_file") [(ECall (EAttr (EAttr (EName "os") "path") "join") [(EName "path"); (EAttr (EName "file") "name")] [])] [])]].

(* src/arinc424/__init__.py *)
Definition py_init : pymodule := [
  SFrom "termcolor" "colored" "colored";
  SFrom "arinc424.record" "Record" "Record";
  SImport "os" "os";
  py_init_parse;
  py_init_search;
  py_init_read_file;
  py_init_read_folder].
