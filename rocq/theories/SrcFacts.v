(* How the values of the interpreter stand for those of the model, and the tactics that run the interpreter. *)
From Coq Require Import List String NArith ZArith Bool.
From Verif Require Import PyBase PyRepr StrFacts DecoderTables Decoder Layouts Json Record Api Utf8 PySyntax PyEval Source.
Import ListNotations.
Open Scope string_scope.
Open Scope list_scope.
Local Open Scope nat_scope.

(* ---- values ---- *)
Definition dec_val (d : dval) : value := match d with DStr s => VStr s | DFloat x => VFloat x | DNone => VNone end.
(* the decoder functions by name *)
Definition fn_name (f : fn) : string :=
  match f with
  | F002 => "field_002" | F003 => "field_003" | F004 => "field_004" | F006 => "field_006"
  | F007 => "field_007" | F008 => "field_008" | F009 => "field_009" | F010 => "field_010"
  | F011 => "field_011" | F012 => "field_012" | F013 => "field_013" | F014 => "field_014"
  | F016 => "field_016" | F017 => "field_017" | F018 => "field_018" | F019 => "field_019"
  | F020 => "field_020" | F021 => "field_021" | F022 => "field_022" | F023 => "field_023"
  | F024 => "field_024" | F025 => "field_025" | F026 => "field_026" | F027 => "field_027"
  | F028 => "field_028" | F029 => "field_029" | F030 => "field_030" | F031 => "field_031"
  | F032 => "field_032" | F033 => "field_033" | F034 => "field_034" | F035 => "field_035"
  | F036 => "field_036" | F037 => "field_037" | F038 => "field_038" | F039 => "field_039"
  | F040 => "field_040" | F041 => "field_041" | F042 => "field_042" | F043 => "field_043"
  | F044 => "field_044" | F045 => "field_045" | F046 => "field_046" | F047 => "field_047"
  | F048 => "field_048" | F049 => "field_049" | F050 => "field_050" | F051 => "field_051"
  | F052 => "field_052" | F053 => "field_053" | F054 => "field_054" | F055 => "field_055"
  | F056 => "field_056" | F057 => "field_057" | F058 => "field_058" | F059 => "field_059"
  | F060 => "field_060" | F061 => "field_061" | F062 => "field_062" | F063 => "field_063"
  | F064 => "field_064" | F065 => "field_065" | F066 => "field_066" | F067 => "field_067"
  | F068 => "field_068" | F069 => "field_069" | F070 => "field_070" | F071 => "field_071"
  | F072 => "field_072" | F073 => "field_073" | F074 => "field_074" | F075 => "field_075"
  | F076 => "field_076" | F077 => "field_077" | F078 => "field_078" | F079 => "field_079"
  | F080 => "field_080" | F081 => "field_081" | F082 => "field_082" | F083 => "field_083"
  | F084 => "field_084" | F085 => "field_085" | F086 => "field_086" | F087 => "field_087"
  | F088 => "field_088" | F089 => "field_089" | F090 => "field_090" | F091 => "field_091"
  | F092 => "field_092" | F093 => "field_093" | F094 => "field_094" | F095 => "field_095"
  | F096 => "field_096" | F097 => "field_097" | F098 => "field_098" | F099 => "field_099"
  | F100 => "field_100" | F101 => "field_101" | F102 => "field_102" | F103 => "field_103"
  | F104 => "field_104" | F105 => "field_105" | F106 => "field_106" | F107 => "field_107"
  | F108 => "field_108" | F109 => "field_109" | F110 => "field_110" | F111 => "field_111"
  | F112 => "field_112" | F113 => "field_113" | F114 => "field_114" | F115 => "field_115"
  | F116 => "field_116" | F117 => "field_117" | F118 => "field_118" | F119 => "field_119"
  | F120 => "field_120" | F121 => "field_121" | F122 => "field_122" | F123 => "field_123"
  | F124 => "field_124" | F125 => "field_125" | F126 => "field_126" | F127 => "field_127"
  | F128 => "field_128" | F129 => "field_129" | F130 => "field_130" | F131 => "field_131"
  | F132 => "field_132" | F133 => "field_133" | F134 => "field_134" | F135 => "field_135"
  | F136 => "field_136" | F137 => "field_137" | F138 => "field_138" | F139 => "field_139"
  | F140 => "field_140" | F141 => "field_141" | F142 => "field_142" | F143 => "field_143"
  | F144 => "field_144" | F145 => "field_145" | F146 => "field_146" | F147 => "field_147"
  | F148 => "field_148" | F149 => "field_149" | F150 => "field_150" | F151 => "field_151"
  | F152 => "field_152" | F153 => "field_153" | F154 => "field_154" | F155 => "field_155"
  | F156 => "field_156" | F157 => "field_157" | F158 => "field_158" | F159 => "field_159"
  | F160 => "field_160" | F161 => "field_161" | F162 => "field_162" | F163 => "field_163"
  | F164 => "field_164" | F165 => "field_165" | F166 => "field_166" | F167 => "field_167"
  | F168 => "field_168" | F169 => "field_169" | F170 => "field_170" | F171 => "field_171"
  | F172 => "field_172" | F173 => "field_173" | F174 => "field_174" | F175 => "field_175"
  | F176 => "field_176" | F177 => "field_177" | F178 => "field_178" | F179 => "field_179"
  | F180 => "field_180" | F181 => "field_181" | F182 => "field_182" | F183 => "field_183"
  | F184 => "field_184" | F185 => "field_185" | F186 => "field_186" | F187 => "field_187"
  | F188 => "field_188" | F189 => "field_189" | F190 => "field_190" | F191 => "field_191"
  | F192 => "field_192" | F193 => "field_193" | F194 => "field_194" | F195 => "field_195"
  | F196 => "field_196" | F197 => "field_197" | F198 => "field_198" | F199 => "field_199"
  | F200 => "field_200" | F201 => "field_201" | F202 => "field_202" | F203 => "field_203"
  | F204 => "field_204" | F205 => "field_205" | F206 => "field_206" | F207 => "field_207"
  | F208 => "field_208" | F209 => "field_209" | F210 => "field_210" | F211 => "field_211"
  | F212 => "field_212" | F213 => "field_213" | F214 => "field_214" | F215 => "field_215"
  | F216 => "field_216" | F217 => "field_217" | F218 => "field_218" | F219 => "field_219"
  | F220 => "field_220" | F221 => "field_221" | F222 => "field_222" | F223 => "field_223"
  | F224 => "field_224" | F225 => "field_225" | F226 => "field_226" | F227 => "field_227"
  | F228 => "field_228" | F229 => "field_229" | F230 => "field_230" | F231 => "field_231"
  | F232 => "field_232" | F233 => "field_233" | F234 => "field_234" | F235 => "field_235"
  | F236 => "field_236" | F237 => "field_237" | F238 => "field_238" | F239 => "field_239"
  | F240 => "field_240" | F241 => "field_241" | F242 => "field_242" | F243 => "field_243"
  | F244 => "field_244" | F245 => "field_245" | F246 => "field_246" | F247 => "field_247"
  | F248 => "field_248" | F249 => "field_249" | F250 => "field_250" | F251 => "field_251"
  | F252 => "field_252" | F253 => "field_253" | F254 => "field_254" | F255 => "field_255"
  | F256 => "field_256" | F257 => "field_257" | F258 => "field_258" | F259 => "field_259"
  | F260 => "field_260" | F261 => "field_261" | F262 => "field_262" | F263 => "field_263"
  | F264 => "field_264" | F265 => "field_265" | F266 => "field_266" | F267 => "field_267"
  | F268 => "field_268" | F269 => "field_269" | F270 => "field_270" | F271 => "field_271"
  | F272 => "field_272" | F273 => "field_273" | F274 => "field_274" | F275 => "field_275"
  | F276 => "field_276"
  end.
(* a Record object *)
Definition rec_obj (i w c : str) (fs d : value) : value :=
  VInst "arinc424.record" "Record" [("ident", VStr i); ("raw", VStr w); ("continuation", VStr c); ("fields", fs); ("definition", d)].

(* ---- objects ---- *)
(* Field(name, value, decoder.field_NNN) *)
Definition fval (f : field) : value :=
  VInst "arinc424.decoder" "Field" [("name", VStr (f_name f)); ("value", VStr (f_value f)); ("decode_fn", VFun "arinc424.decoder" (fn_name (f_fn f)))].
Definition fvals (fs : list field) : value := VList (map fval fs).
Definition cls_title (d : cls) : string :=
  match d with
  | CAirport => "Airport" | CAirportCommunication => "AirportCommunication" | CAirportGate => "AirportGate"
  | CAirwaysMarker => "AirwaysMarker" | CAlternate => "Alternate" | CCompanyRoute => "CompanyRoute"
  | CControlledAirspace => "ControlledAirspace" | CCruisingTables => "CruisingTables" | CEnrouteAirways => "EnrouteAirways"
  | CEnrouteAirwaysRestriction => "EnrouteAirwaysRestriction" | CEnrouteCommunications => "EnrouteCommunications"
  | CFIRUIR => "FIRUIR" | CFlightPlanning => "FlightPlanning" | CGLS => "GLS" | CGeoReferenceTable => "GeoReferenceTable"
  | CGridMORA => "GridMORA" | CHeliport => "Heliport" | CHeliportCommunications => "HeliportCommunications"
  | CHeliportTerminalWaypoint => "HeliportTerminalWaypoint" | CHoldingPattern => "HoldingPattern"
  | CLocalizerGlideslope => "LocalizerGlideslope" | CLocalizerMarker => "LocalizerMarker" | CMLS => "MLS"
  | CMSA _ => "MSA" | CNDBNavaid => "NDBNavaid" | CPathPoint => "PathPoint" | CPreferredRoute => "PreferredRoute"
  | CRestrictiveAirspace => "RestrictiveAirspace" | CRunway => "Runway" | CSIDSTARApproach => "SIDSTARApproach"
  | CTAA _ => "TAA" | CVHFNavaid => "VHFNavaid" | CWaypoint _ => "Waypoint"
  end.
Definition cls_module (d : cls) : string := String.append "arinc424.definitions." (cls_title d).
Definition cls_attrs (d : cls) : list (string * value) :=
  match d with
  | CMSA h | CTAA h => [("heliport", VBool h); ("id_name", VStr (if h then lit "Heliport Identifier" else lit "Airport Identifier"))]
  | CWaypoint e => [("enroute", VBool e)]
  | _ => []
  end.
Definition cls_val (d : cls) : value := VInst (cls_module d) (cls_title d) (cls_attrs d).
Definition def_val (d : option cls) : value := match d with Some c => cls_val c | None => VInt (-1) end.
Definition rec_val (r : rec) : value := rec_obj (ident r) (raw r) (continuation r) (fvals (fields r)) (def_val (definition r)).
(* the dictionary `records` *)
Definition recs_items : list (str * value) := rev (map (fun kc => (fst kc, cls_val (snd kc))) records).
Definition recs : value := VDict (Some (VFun "arinc424.record" "def_val")) recs_items.

(* ---- the state between calls: LegTypeDesc and records ---- *)
Definition leg_val (leg : list (str * value)) : value := VDict (Some (VFun "arinc424.decoder" "def_val")) leg.
Definition globs (leg : list (str * value)) (recs : value) : globals :=
  [("arinc424.decoder", "LegTypeDesc", leg_val leg); ("arinc424.record", "records", recs)].
(* LegTypeDesc may have got further keys, with the value for unknown ones *)
Definition leg_ok (leg : list (str * value)) : Prop :=
  forall key, match assoc key leg with
              | Some v => v = VStr (lookup tbl_LegTypeDesc key)
              | None => assoc key tbl_LegTypeDesc = None
              end.
(* a is the answer to a call that prints, returns or raises as m says *)
Definition answers {A} (toval : A -> value) (m : M A) (l : locals) (o : list event) (recs : value)
    (kx : exc -> st -> ans) (k : value -> st -> ans) (a : ans) : Prop :=
  exists leg, leg_ok leg /\
    match m with
    | (o', Ok r) => a = k (toval r) (St l (o ++ o') (globs leg recs))
    | (o', Err e) => exists x, e_kind x = e /\ a = kx x (St l (o ++ o') (globs leg recs))
    end.

(* function `name` of decoder.py, called with a text and a Record, does what the model says *)
Definition decodes (name : string) (model : str -> recview -> M dval) : Prop :=
  forall files n v i w c fs d l o leg recs kx k, leg_ok leg ->
    answers dec_val (model v (RecView i w)) l o recs kx k
      (call_value source files (run source files (S (S n))) (VFun "arinc424.decoder" name) [VStr v; rec_obj i w c fs d] [] (St l o (globs leg recs)) kx k).

(* ---- dictionaries ---- *)
Definition val_items (l : list (str * str)) : list (str * value) := map (fun kv => (fst kv, VStr (snd kv))) l.
Fixpoint unval_items (l : list (str * value)) : list (str * str) :=
  match l with
  | [] => []
  | (k, VStr v) :: l' => (k, v) :: unval_items l'
  | _ :: l' => unval_items l'
  end.
Lemma assoc_vals : forall key l, assoc key (val_items l) = option_map VStr (assoc key l).
Proof.
  intros key l. induction l as [|[k v] l IH]; [reflexivity|]. cbn [val_items map fst snd assoc]. destruct (str_eqb key k); [reflexivity|exact IH].
Qed.
Lemma assoc_head : forall {A} key (v : A) l, assoc key ((key, v) :: l) = Some v.
Proof. intros A key v l. cbn [assoc]. rewrite str_eqb_refl. reflexivity. Qed.
Definition all_strs (l : list (str * value)) : bool := forallb (fun kv => match snd kv with VStr _ => true | _ => false end) l.
Definition opt_eqb (a b : option str) : bool :=
  match a, b with Some x, Some y => str_eqb x y | None, None => true | _, _ => false end.
Definition same_assoc (a b : list (str * str)) : bool := forallb (fun k => opt_eqb (assoc k a) (assoc k b)) (map fst a ++ map fst b).
Lemma assoc_not_in : forall {A} key (l : list (str * A)), ~ In key (map fst l) -> assoc key l = None.
Proof.
  intros A key l. induction l as [|[k v] l IH]; [reflexivity|]. cbn [map fst assoc In]. intro H.
  destruct (str_eqb key k) eqn:E; [apply str_eqb_eq in E; exfalso; apply H; left; congruence|apply IH; tauto].
Qed.
Lemma opt_eqb_eq : forall a b, opt_eqb a b = true -> a = b.
Proof. intros [x|] [y|] H; try discriminate; [apply str_eqb_eq in H; congruence|reflexivity]. Qed.
Lemma same_assoc_eq : forall a b, same_assoc a b = true -> forall key, assoc key a = assoc key b.
Proof.
  intros a b H key. destruct (in_dec (list_eq_dec N.eq_dec) key (map fst a ++ map fst b)) as [I|I].
  - apply opt_eqb_eq. unfold same_assoc in H. rewrite forallb_forall in H. exact (H key I).
  - rewrite in_app_iff in I. rewrite !assoc_not_in by tauto. reflexivity.
Qed.

Lemma val_unval : forall l, all_strs l = true -> l = val_items (unval_items l).
Proof.
  intro l. induction l as [|[k v] l IH]; [reflexivity|]. cbn [all_strs forallb snd]. intro H. apply andb_prop in H. destruct H as [V H].
  destruct v; try discriminate. cbn [unval_items val_items map fst snd]. f_equal. exact (IH H).
Qed.
Lemma source_lookup : forall (t : list (list N * list N)) (l : list (str * value)) (key : list N),
  all_strs l && same_assoc (unval_items l) t = true ->
  @assoc value key l = match @assoc (list N) key t with Some x => Some (VStr x) | None => None end.
Proof.
  intros t l key H. apply andb_prop in H. destruct H as [V H]. rewrite (val_unval l V), assoc_vals, (same_assoc_eq _ _ H). reflexivity.
Qed.

(* ---- running ---- *)
(* names for the parts of the interpreter that the tactics unfold one step at a time *)
Definition src_run (files : disk) := run source files.
Definition src_block (files : disk) (n : nat) := exec_block source files (src_run files n).
Definition src_call (files : disk) (n : nat) (f : value) (args : list value) := call_value source files (src_run files n) f args [].
Lemma src_call_eq : forall files n f args s kx k, call_value source files (run source files n) f args [] s kx k = src_call files n f args s kx k.
Proof. reflexivity. Qed.
Lemma src_run_S : forall files n m ps body kd args s kx k,
  src_run files (S n) m ps body kd args s kx k =
  match bind_params ps args with
  | None => Stuck "arguments"
  | Some l => src_block files n m false body (St (hold_first kd l) (out s) (glob s)) kx k (fun _ => Stuck "continue") (fun s' => k VNone s')
  end.
Proof. reflexivity. Qed.
Lemma src_block_nil : forall files n m top s kx kr kc k, src_block files n m top [] s kx kr kc k = k s.
Proof. reflexivity. Qed.
Lemma src_block_cons : forall files n m top c cs s kx kr kc k,
  src_block files n m top (c :: cs) s kx kr kc k = exec source files (src_run files n) m top c s kx kr kc (fun s => src_block files n m top cs s kx kr kc k).
Proof. reflexivity. Qed.

Lemma src_block_if : forall files n m top c a b cs s kx kr kc k,
  src_block files n m top (SIf c a b :: cs) s kx kr kc k =
  eval source files (src_run files n) m c s kx (fun v s => or_stuck "if" (truth v) (fun t : bool =>
    if t then src_block files n m top a s kx kr kc (fun s => src_block files n m top cs s kx kr kc k)
    else src_block files n m top b s kx kr kc (fun s => src_block files n m top cs s kx kr kc k))).
Proof. reflexivity. Qed.
Lemma src_block_for : forall files n m x e b cs s kx kr kc k,
  src_block files n m false (SFor x e b :: cs) s kx kr kc k =
  eval source files (src_run files n) m e s kx (fun v s =>
    match v with
    | VList vs => for_loop (fun v s next => match get x (loc s) with
                                            | Some (KSelf, _) => Stuck x
                                            | _ => src_block files n m false b (bind_local x KRef v s) kx kr next next
                                            end) vs s (fun s => src_block files n m false cs s kx kr kc k)
    | _ => Stuck "for"
    end).
Proof. reflexivity. Qed.
Lemma src_block_with : forall files n m x e b cs s kx kr kc k,
  src_block files n m false (SWith e x b :: cs) s kx kr kc k =
  eval source files (src_run files n) m e s kx (fun v s =>
    match v with
    | VFile _ => src_block files n m false b (bind_local x KOwn v s) (fun ex s => kx ex (drop_local x s)) (fun r s => kr r (drop_local x s))
                   (fun s => kc (drop_local x s)) (fun s => src_block files n m false cs (drop_local x s) kx kr kc k)
    | _ => Stuck "with"
    end).
Proof. reflexivity. Qed.

Lemma src_block_2 : forall files n m top c0 c1 cs s kx kr kc k,
  src_block files n m top (c0 :: c1 :: cs) s kx kr kc k =
  exec source files (src_run files n) m top c0 s kx kr kc (fun s => exec source files (src_run files n) m top c1 s kx kr kc (fun s => src_block files n m top cs s kx kr kc k)).
Proof. reflexivity. Qed.
Lemma src_block_4 : forall files n m top c0 c1 c2 c3 cs s kx kr kc k,
  src_block files n m top (c0 :: c1 :: c2 :: c3 :: cs) s kx kr kc k =
  exec source files (src_run files n) m top c0 s kx kr kc (fun s => exec source files (src_run files n) m top c1 s kx kr kc (fun s => exec source files (src_run files n) m top c2 s kx kr kc (fun s => exec source files (src_run files n) m top c3 s kx kr kc (fun s => src_block files n m top cs s kx kr kc k)))).
Proof. reflexivity. Qed.
Lemma src_block_8 : forall files n m top c0 c1 c2 c3 c4 c5 c6 c7 cs s kx kr kc k,
  src_block files n m top (c0 :: c1 :: c2 :: c3 :: c4 :: c5 :: c6 :: c7 :: cs) s kx kr kc k =
  exec source files (src_run files n) m top c0 s kx kr kc (fun s => exec source files (src_run files n) m top c1 s kx kr kc (fun s => exec source files (src_run files n) m top c2 s kx kr kc (fun s => exec source files (src_run files n) m top c3 s kx kr kc (fun s => exec source files (src_run files n) m top c4 s kx kr kc (fun s => exec source files (src_run files n) m top c5 s kx kr kc (fun s => exec source files (src_run files n) m top c6 s kx kr kc (fun s => exec source files (src_run files n) m top c7 s kx kr kc (fun s => src_block files n m top cs s kx kr kc k)))))))).
Proof. reflexivity. Qed.
Lemma src_block_16 : forall files n m top c0 c1 c2 c3 c4 c5 c6 c7 c8 c9 c10 c11 c12 c13 c14 c15 cs s kx kr kc k,
  src_block files n m top (c0 :: c1 :: c2 :: c3 :: c4 :: c5 :: c6 :: c7 :: c8 :: c9 :: c10 :: c11 :: c12 :: c13 :: c14 :: c15 :: cs) s kx kr kc k =
  exec source files (src_run files n) m top c0 s kx kr kc (fun s => exec source files (src_run files n) m top c1 s kx kr kc (fun s => exec source files (src_run files n) m top c2 s kx kr kc (fun s => exec source files (src_run files n) m top c3 s kx kr kc (fun s => exec source files (src_run files n) m top c4 s kx kr kc (fun s => exec source files (src_run files n) m top c5 s kx kr kc (fun s => exec source files (src_run files n) m top c6 s kx kr kc (fun s => exec source files (src_run files n) m top c7 s kx kr kc (fun s => exec source files (src_run files n) m top c8 s kx kr kc (fun s => exec source files (src_run files n) m top c9 s kx kr kc (fun s => exec source files (src_run files n) m top c10 s kx kr kc (fun s => exec source files (src_run files n) m top c11 s kx kr kc (fun s => exec source files (src_run files n) m top c12 s kx kr kc (fun s => exec source files (src_run files n) m top c13 s kx kr kc (fun s => exec source files (src_run files n) m top c14 s kx kr kc (fun s => exec source files (src_run files n) m top c15 s kx kr kc (fun s => src_block files n m top cs s kx kr kc k)))))))))))))))).
Proof. reflexivity. Qed.
Definition simple (c : stmt) : bool := match c with SAssign _ _ | SExpr _ | SAug _ _ _ => true | _ => false end.
Fixpoint simple_prefix (cs : list stmt) : nat := match cs with c :: cs' => if simple c then S (simple_prefix cs') else 0 | [] => 0 end.
Lemma eqb_of_nat : forall a b c, Z.of_nat b = c -> Z.eqb (Z.of_nat a) c = Nat.eqb a b.
Proof.
  intros a b c <-. destruct (Nat.eqb_spec a b) as [->|H]; [apply Z.eqb_refl|]. apply Z.eqb_neq. intro E. apply H, Nat2Z.inj, E.
Qed.
Lemma gtb_of_nat : forall a b c, Z.of_nat b = c -> Z.gtb (Z.of_nat a) c = Nat.ltb b a.
Proof.
  intros a b c <-. rewrite Z.gtb_ltb. destruct (Nat.ltb_spec b a) as [H|H]; [apply Z.ltb_lt, Nat2Z.inj_lt, H|apply Z.ltb_ge, Nat2Z.inj_le, H].
Qed.
Ltac run_in :=
  lazy -[lit str_eqb strip isalnum isalpha isnumeric index slice slice_from slice_to slice_last py_int py_float fl_div fmt_fixed fmt03
         List.app assoc contains startswith endswith lstrip0 find_sub repr_str str_of_Z repr_list List.length answers leg_ok
         for_loop decode_utf8 contents entries readlines path_join dumps dumps_pretty py_dict str_items same_strs dec_val
         fn_name fval fvals recs_items build src_run src_block Z.of_nat Z.eqb Z.gtb Z.ltb Z.add Z.sub Z.mul Nat.eqb Nat.ltb nth_error].
(* the next condition: computed if closed, translated to the words of the model, or split *)
Ltac split_on y := match goal with H : y = _ |- _ => rewrite H | _ => destruct y eqn:? end.
Ltac decide_on y :=
  lazymatch y with
  | match ?z with _ => _ end => decide_on z
  | str_eqb (lit _) (lit _) => let x := eval vm_compute in y in change y with x
  | str_eqb _ (lit "") => change (lit "") with (@nil N)
  | same_strs _ _ => let x := eval vm_compute in y in change y with x
  | assoc ?key ((?key, _) :: _) => rewrite assoc_head
  | @assoc ?T _ [] => change y with (@None T)
  | @assoc value ?key ((?k0, VStr ?v0) :: ?l) =>
      let t := eval lazy -[lit] in (rev (unval_items ((k0, VStr v0) :: l))) in
      let H := fresh in
      assert (H : y = match @assoc (list N) key t with Some x => Some (VStr x) | None => None end) by (apply source_lookup; vm_compute; reflexivity);
      rewrite H; clear H
  | Z.eqb (Z.of_nat ?a) ?c => let b := eval lazy in (Z.to_nat c) in rewrite (eqb_of_nat a b c eq_refl)
  | Z.gtb (Z.of_nat ?a) ?c => let b := eval lazy in (Z.to_nat c) in rewrite (gtb_of_nat a b c eq_refl)
  | Z.gtb (Zpos _) (Zpos _) => let x := eval lazy in y in change y with x
  | Z.gtb (Zpos _) Z0 => let x := eval lazy in y in change y with x
  | Z.gtb ?a ?b => rewrite (Z.gtb_ltb a b)
  | Z.eqb _ _ =>
      let x := eval lazy in y in
      lazymatch x with
      | true => change y with true
      | false => change y with false
      | _ => split_on y
      end
  | _ => split_on y
  end; cbv beta iota.
Ltac next_statements :=
  lazymatch goal with
  | |- context [src_block _ _ _ _ ?cs _ _ _ _ _] =>
      let q := eval lazy in (simple_prefix cs) in
      lazymatch q with
      | S (S (S (S (S (S (S (S (S (S (S (S (S (S (S (S _))))))))))))))) => rewrite src_block_16
      | S (S (S (S (S (S (S (S _))))))) => rewrite src_block_8
      | S (S (S (S _))) => rewrite src_block_4
      | S (S _) => rewrite src_block_2
      | _ => rewrite src_block_cons
      end
  end.
(* run the answer until it is a call of a continuation *)
Ltac step :=
  lazymatch goal with
  | |- answers _ _ _ _ _ _ _ ?a =>
      lazymatch a with
      | match ?x with _ => _ end => decide_on x
      | src_run _ _ _ _ _ _ _ _ _ _ => rewrite src_run_S; run_in
      | src_block _ _ _ _ [] _ _ _ _ _ => rewrite src_block_nil; cbv beta
      | src_block _ _ _ _ (_ :: _) _ _ _ _ _ => next_statements; run_in
      end
  end.
(* the model, evaluated under the conditions found *)
Ltac known y :=
  lazymatch y with
  | match ?z with _ => _ end => known z
  | _ => match goal with H : y = _ |- _ => rewrite H end
  end.
Ltac use_conditions := repeat (match goal with |- context [match ?x with _ => _ end] => known x end; cbv beta iota).
Ltac use_equalities :=
  repeat match goal with
  | H : str_eqb ?x (lit _) = true |- context [?x] => rewrite (proj1 (str_eqb_eq _ _) H)
  | H : Nat.eqb ?x _ = true |- context [?x] => rewrite (proj1 (Nat.eqb_eq _ _) H)
  | |- context [str_eqb (lit ?a) (lit ?b)] => let x := eval vm_compute in (str_eqb (lit a) (lit b)) in change (str_eqb (lit a) (lit b)) with x; cbv beta iota
  end.
Ltac answer leg L :=
  unfold answers; exists leg; split; [exact L|]; cbv beta iota zeta delta [globs leg_val dec_val]; rewrite ?List.app_nil_r, <- ?List.app_assoc;
  first [reflexivity | eexists; split; [|reflexivity]; reflexivity].
Ltac undecided := lazymatch goal with |- context [match _ with _ => _ end] => idtac end.
Ltac finish leg L :=
  lazymatch goal with
  | E : ?m = _ |- answers _ ?m _ _ _ _ _ ?a =>
      let b := fresh "b" in remember a as b; revert E; run_in; use_conditions;
      try (undecided; cbn [assoc]; use_conditions);
      try (undecided; use_equalities; cbv beta iota; use_conditions);
      intro E; subst m b; answer leg L
  end.
Ltac start_decoder :=
  let L := fresh "L" in intros files n v i w c fs d l o leg recs kx k L; rewrite src_call_eq;
  match goal with |- answers _ ?t _ _ _ _ _ _ => let m := fresh "m" in remember t as m end; run_in.
Ltac finish_decoder := match goal with L : leg_ok ?leg |- _ => finish leg L end.
Ltac decoder := start_decoder; repeat step; finish_decoder.
