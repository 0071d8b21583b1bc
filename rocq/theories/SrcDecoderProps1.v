(* The decoder functions of the source, one by one: those with more than a return. *)
From Coq Require Import List String NArith ZArith Bool.
From Verif Require Import PyBase PyRepr StrFacts DecoderTables Decoder Layouts Json Record Api Utf8 PySyntax PyEval Source SrcFacts.
Import ListNotations.
Open Scope string_scope.
Open Scope list_scope.
Local Open Scope nat_scope.

Lemma decodes_002 : decodes "field_002" field_002.
Proof. decoder. Qed.
Lemma decodes_003 : decodes "field_003" field_003.
Proof. decoder. Qed.
Lemma decodes_004 : decodes "field_004" field_004.
Proof. decoder. Qed.
Lemma decodes_008 : decodes "field_008" field_008.
Proof. decoder. Qed.
Lemma decodes_009 : decodes "field_009" field_009.
Proof. decoder. Qed.
Lemma decodes_010 : decodes "field_010" field_010.
Proof. decoder. Qed.
Lemma decodes_016 : decodes "field_016" field_016.
Proof. decoder. Qed.
Lemma decodes_020 : decodes "field_020" field_020.
Proof. decoder. Qed.
Lemma decodes_022 : decodes "field_022" field_022.
Proof. decoder. Qed.
Lemma decodes_023 : decodes "field_023" field_023.
Proof. decoder. Qed.
Lemma decodes_024 : decodes "field_024" field_024.
Proof. decoder. Qed.
Lemma decodes_025 : decodes "field_025" field_025.
Proof. decoder. Qed.
Lemma decodes_026 : decodes "field_026" field_026.
Proof. decoder. Qed.
Lemma decodes_027 : decodes "field_027" field_027.
Proof. decoder. Qed.
Lemma decodes_032 : decodes "field_032" field_032.
Proof. decoder. Qed.
Lemma decodes_034 : decodes "field_034" field_034.
Proof. decoder. Qed.
Lemma decodes_039 : decodes "field_039" field_039.
Proof. decoder. Qed.
Lemma decodes_042 : decodes "field_042" field_042.
Proof. decoder. Qed.
Lemma decodes_043 : decodes "field_043" field_043.
Proof. decoder. Qed.
Lemma decodes_045 : decodes "field_045" field_045.
Proof. decoder. Qed.
Lemma decodes_049 : decodes "field_049" field_049.
Proof. decoder. Qed.
Lemma decodes_054 : decodes "field_054" field_054.
Proof. decoder. Qed.
Lemma decodes_062 : decodes "field_062" field_062.
Proof. decoder. Qed.
Lemma decodes_072 : decodes "field_072" field_072.
Proof. decoder. Qed.
Lemma decodes_082 : decodes "field_082" field_082.
Proof. decoder. Qed.
Lemma decodes_091 : decodes "field_091" field_091.
Proof. decoder. Qed.
Lemma decodes_101 : decodes "field_101" field_101.
Proof. decoder. Qed.
Lemma decodes_102 : decodes "field_102" field_102.
Proof. decoder. Qed.
Lemma decodes_103 : decodes "field_103" field_103.
Proof. decoder. Qed.
Lemma decodes_104 : decodes "field_104" field_104.
Proof. decoder. Qed.
Lemma decodes_106 : decodes "field_106" field_106.
Proof. decoder. Qed.
Lemma decodes_108 : decodes "field_108" field_108.
Proof. decoder. Qed.
Lemma decodes_112 : decodes "field_112" field_112.
Proof. decoder. Qed.
Lemma decodes_113 : decodes "field_113" field_113.
Proof. decoder. Qed.
Lemma decodes_117 : decodes "field_117" field_117.
Proof. decoder. Qed.
Lemma decodes_118 : decodes "field_118" field_118.
Proof. decoder. Qed.
Lemma decodes_135 : decodes "field_135" field_135.
Proof. decoder. Qed.
Lemma decodes_165 : decodes "field_165" field_165.
Proof. decoder. Qed.
Lemma decodes_177 : decodes "field_177" field_177.
Proof. decoder. Qed.
Lemma decodes_179 : decodes "field_179" field_179.
Proof. decoder. Qed.
Lemma decodes_181 : decodes "field_181" field_181.
Proof. decoder. Qed.
Lemma decodes_182 : decodes "field_182" field_182.
Proof. decoder. Qed.
Lemma decodes_196 : decodes "field_196" field_196.
Proof. decoder. Qed.
Lemma decodes_198 : decodes "field_198" field_198.
Proof. decoder. Qed.
Lemma decodes_199 : decodes "field_199" field_199.
Proof. decoder. Qed.
Lemma decodes_269 : decodes "field_269" field_269.
Proof. decoder. Qed.
Lemma decodes_270 : decodes "field_270" field_270.
Proof. decoder. Qed.
