(* Every decoder function of the source does what the model of it does. *)
From Coq Require Import List String NArith ZArith Bool.
From Verif Require Import PyBase PyRepr StrFacts DecoderTables Decoder Layouts Json Record Api Utf8 PySyntax PyEval Source SrcFacts
  SrcDecoderProps1 SrcDecoderProps2 SrcDecoderProps3.
Import ListNotations.
Open Scope string_scope.
Open Scope list_scope.
Local Open Scope nat_scope.

Theorem source_decodes : forall f, decodes (fn_name f) (run_fn f).
Proof.
  intro f; destruct f; cbn [fn_name run_fn];
    lazymatch goal with
    | |- decodes "field_002" _ => exact decodes_002 | |- decodes "field_003" _ => exact decodes_003 | |- decodes "field_004" _ => exact decodes_004
    | |- decodes "field_007" _ => exact decodes_007 | |- decodes "field_008" _ => exact decodes_008 | |- decodes "field_009" _ => exact decodes_009
    | |- decodes "field_010" _ => exact decodes_010 | |- decodes "field_012" _ => exact decodes_012 | |- decodes "field_016" _ => exact decodes_016
    | |- decodes "field_017" _ => exact decodes_017 | |- decodes "field_020" _ => exact decodes_020 | |- decodes "field_021" _ => exact decodes_021
    | |- decodes "field_022" _ => exact decodes_022 | |- decodes "field_023" _ => exact decodes_023 | |- decodes "field_024" _ => exact decodes_024
    | |- decodes "field_025" _ => exact decodes_025 | |- decodes "field_026" _ => exact decodes_026 | |- decodes "field_027" _ => exact decodes_027
    | |- decodes "field_032" _ => exact decodes_032 | |- decodes "field_034" _ => exact decodes_034 | |- decodes "field_039" _ => exact decodes_039
    | |- decodes "field_042" _ => exact decodes_042 | |- decodes "field_043" _ => exact decodes_043 | |- decodes "field_045" _ => exact decodes_045
    | |- decodes "field_049" _ => exact decodes_049 | |- decodes "field_054" _ => exact decodes_054 | |- decodes "field_062" _ => exact decodes_062
    | |- decodes "field_065" _ => exact decodes_065 | |- decodes "field_072" _ => exact decodes_072 | |- decodes "field_082" _ => exact decodes_082
    | |- decodes "field_091" _ => exact decodes_091 | |- decodes "field_101" _ => exact decodes_101 | |- decodes "field_102" _ => exact decodes_102
    | |- decodes "field_103" _ => exact decodes_103 | |- decodes "field_104" _ => exact decodes_104 | |- decodes "field_106" _ => exact decodes_106
    | |- decodes "field_108" _ => exact decodes_108 | |- decodes "field_112" _ => exact decodes_112 | |- decodes "field_113" _ => exact decodes_113
    | |- decodes "field_117" _ => exact decodes_117 | |- decodes "field_118" _ => exact decodes_118 | |- decodes "field_135" _ => exact decodes_135
    | |- decodes "field_165" _ => exact decodes_165 | |- decodes "field_177" _ => exact decodes_177 | |- decodes "field_178" _ => exact decodes_178
    | |- decodes "field_179" _ => exact decodes_179 | |- decodes "field_181" _ => exact decodes_181 | |- decodes "field_182" _ => exact decodes_182
    | |- decodes "field_196" _ => exact decodes_196 | |- decodes "field_198" _ => exact decodes_198 | |- decodes "field_199" _ => exact decodes_199
    | |- decodes "field_269" _ => exact decodes_269 | |- decodes "field_270" _ => exact decodes_270
    | _ => decoder
    end.
Qed.
