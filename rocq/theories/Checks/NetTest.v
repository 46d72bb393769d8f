(** The cases of parser_net_test/FanucAllAttributesParserTests.cs: calls through
    the C interface, with the texts of the messages. *)
From Verif Require Import Model.Base Model.Attr Model.Double Model.Macro Model.Enums Model.Grammar Model.Verifiers Model.PathGeom Model.PathCalc.
From Verif Require Import Model.Renumberer Model.Rotator Model.UnitConv Model.Parser Model.Messages Model.Wrapper Checks.Approx.
Local Open Scope string_scope.
Local Open Scope Z_scope.

(** 27-153: the set-up. *)
Definition built {A} (r : res A) (d : A) : A := match r with Ok x => x | Exc _ => d end.

Definition words : word_map :=
  built (build_grammar_map
    ["N"; ":"; "A"; "G"; "M"; "X"; "Y"; "Z"; "I"; "J"; "K"; "S"; "T"; ",C"; "O"; "/"; "#"; "="; "+"; "-"; "GOTO"]
    [mkWG "N" 1 9999 0 0 false WTnumbering;
     mkWG ":" 1 9999 0 0 false WTnumbering;
     mkWG "A" 1 9999 0 0 false WTangle;
     mkWG "G" 0 99 0 9 false WTcode;
     mkWG "M" 1 999 0 0 false WTcode;
     mkWG "X" (-9999) 9999 0 9999 true WTlength;
     mkWG "Y" (-9999) 9999 0 9999 true WTlength;
     mkWG "Z" (-9999) 9999 0 9999 true WTlength;
     mkWG "I" (-9999) 9999 0 9999 true WTlength;
     mkWG "J" (-9999) 9999 0 9999 true WTlength;
     mkWG "K" (-9999) 9999 0 9999 true WTlength;
     mkWG "S" 1 99999 0 0 false WTmisc;
     mkWG "T" 1 999 0 0 false WTmisc;
     mkWG ",C" (-99) 99 0 99 false WTmisc;
     mkWG "O" 1 9999 0 0 true WTmisc;
     mkWG "/" 1 9 0 0 false WTcalc;
     mkWG "#" 0 9999 0 0 false WTmacro;
     mkWG "=" (-9999) 9999 0 9999 false WTcalc;
     mkWG "+" (-9999) 9999 0 9999 false WTcalc;
     mkWG "-" (-9999) 9999 0 9999 false WTcalc;
     mkWG "GOTO" 1 9999 0 0 false WTmisc]
    21) [].

Definition functions : list string :=
  ["SIN"; "COS"; "TAN"; "ATAN"; "SQRT"; "ABS"; "ROUND"; "FIX"; "FUP"; "OR"; "XOR"; "AND"; "BIN"; "BCD"; "OR"; "XOR"; "AND"; "IF"; "WHILE"; "DO"; "END"; "EQ"; "LE"].

Definition gcodes : code_groups := (built (build_groups ["0"; "1"; "6"] [mkCgv 0 0; mkCgv 4 0; mkCgv 5 1; mkCgv 5 4; mkCgv 2 0; mkCgv 2 2; mkCgv 20 0; mkCgv 21 0] 3 [4; 2; 2]) []).
Definition mcodes : code_groups := (built (build_groups ["0"; "1"] [mkCgv 14 0; mkCgv 15 0; mkCgv 22 0; mkCgv 23 0] 2 [2; 2]) []).
Definition cf (haas : bool) : config := mkConfig (mkFG words words) functions gcodes mcodes haas.

Definition cnc : cnc_defaults := mkCnc 0 17 false 90 94 false 98 3 false false false false false false false false.
Definition mill : machine :=
  mkMachine false MTMill [] [("X", dzero); ("Y", dzero); ("Z", dzero); ("I", dzero); ("J", dzero); ("K", dzero)] ["X"; "Y"; "Z"] (dz 20000) 6 0 0
            false false "" "" "M" "123" cnc.
Definition kin : kinematics :=
  mkKin [("X", (dz (-500), dz 500)); ("Y", (dz (-500), dz 500)); ("Z", (dzero, dz 1000))] (dz 20000) 10000 30.
Definition zp : zero_point := mkZP dzero dzero (dz 200).

(** The parser made without settings, or with [SetNCSettings] called. *)
Definition start (haas nc : bool) : parser :=
  let p := parser_new (cf haas) (negb nc) in if nc then fst (set_ncsettings (cf haas) mill kin zp p) else p.

Definition lit (s : string) : dbl := match stod s with Ok x => x | Exc _ => S754_nan end.
Definition libm (f : string) (x : dbl) : dbl := if String.eqb f "sqrt" then dsqrt x else S754_nan.
Definition ren_settings : renumber_settings := mkRS ":" 3 2 6 true true.

Inductive op : Type :=
| OParse (line : Z) | OConvert (d : unit_dir) | ORemoveNumbering | ORenumber (rs : renumber_settings)
| ORotate (o : rot_option) | ORemoveComment | ORemoveOptional.

Definition run (haas : bool) (st : parser_settings) (o : op) (t : string) (p : parser) : parser * block * answer :=
  match o with
  | OParse line => parse lit libm atan_series log_series dabs 90 (cf haas) st line t p
  | OConvert d => convert_length (cf haas) d t p
  | ORemoveNumbering => remove_numbering (cf haas) t p
  | ORenumber rs => renumber_line (cf haas) rs t p
  | ORotate o => rotate_line o t p
  | ORemoveComment => remove_comment_line t p
  | ORemoveOptional => remove_optional_line t p
  end.

(** What is asserted of the message and of the words. *)
Inductive text_is : Type := Is (t : string) | Some_text | MAny.

Inductive act : Type :=
| SReset
| SStart (n : Z)
| Count (n : Z)
| LineCount (line n : Z)
| Holds (id line v : Z)
| Call (o : op) (t : string) (ret : bool) (m : text_is) (v : option (list (string * string))).

Definition text : message -> string := message_text "" Polish.

Definition said (m : text_is) (t : string) : bool :=
  match m with
  | Is t' => String.eqb t t'
  | Some_text => negb (String.eqb t "")
  | MAny => true
  end.

(** The words as a reader of the arrays sees them: texts end at the first zero. *)
Fixpoint until_zero (s : string) : string :=
  match s with
  | EmptyString => ""
  | String c s' => if Ascii.eqb c zero then "" else String c (until_zero s')
  end.

Definition chars_at (h : heap) (p : ptr) : option string :=
  match load p h with Ok (CChars s) => Some (until_zero s) | _ => None end.

Definition shown (h : heap) (o : outs) : option (list (string * string)) :=
  match load (o_value o) h with
  | Ok (CWords l) =>
      fold_right (fun w r => match chars_at h (fst w), chars_at h (snd w), r with
                             | Some a, Some b, Some r => Some ((a, b) :: r)
                             | _, _, _ => None
                             end) (Some []) l
  | _ => None
  end.

Definition same_words (a b : list (string * string)) : bool :=
  if list_eq_dec (fun x y : string * string =>
       match string_dec (fst x) (fst y), string_dec (snd x) (snd y) with
       | left e1, left e2 => left (eq_trans (surjective_pairing x) (eq_trans (f_equal2 pair e1 e2) (eq_sym (surjective_pairing y))))
       | right n, _ => right (fun e => n (f_equal fst e))
       | _, right n => right (fun e => n (f_equal snd e))
       end) a b then true else false.

Fixpoint run_all (haas : bool) (st : parser_settings) (l : list act) (p : parser) : parser * list bool :=
  match l with
  | [] => (p, [])
  | SReset :: l => run_all haas st l (with_ren renumber_reset p)
  | SStart n :: l => run_all haas st l (with_ren (set_start_value (pr_ren p) n) p)
  | Count n :: l =>
      let '(p', r) := run_all haas st l p in (p', (Z.of_nat (List.length (pr_macros p)) =? n) :: r)
  | LineCount line n :: l =>
      let '(p', r) := run_all haas st l p in
      (p', (mo_length (fst (get_line_macro_values (pr_macros p) line (mkMO PNull PNull PNull 0) [])) =? n) :: r)
  | Holds i n v :: l =>
      let '(p', r) := run_all haas st l p in
      (p', existsb (fun x => (k_id (fst x) =? i) && (k_line (fst x) =? n) && deqb (snd x) (dz v)) (pr_macros p) :: r)
  | Call o t ret m v :: l =>
      let '(p', h, os, r) := words_call text (run haas st o t) (mkOuts PNull 0 PNull) p [] in
      let ok :=
        match r with
        | Exc _ => false
        | Ok b =>
            Bool.eqb b ret
            && said m (match o_message os with
                       | PNull => ""
                       | q => match chars_at h q with Some s => s | None => "?" end
                       end)
            && match v with
               | None => true
               | Some ws => match shown h os with
                            | Some ws' => same_words ws ws'
                            | None => false
                            end
               end
        end in
      let '(p'', r') := run_all haas st l p' in (p'', ok :: r')
  end.

Definition calls (l : list act) : list bool :=
  flat_map (fun a => match a with SReset | SStart _ => [] | _ => [true] end) l.

Definition passes (st : parser_settings) (haas nc : bool) (l : list act) : Prop :=
  snd (run_all haas st l (start haas nc)) = calls l.

(** ParseTest *)
Example net_Parse : passes (mkPS false true false false false) false false
  [Call (OParse 1) "A500" true (Is "") None;
   Call (OParse 1) "AB" false (Is "Brak wartości dla adresu [A]") None;
   Call (OParse 1) "X100 Y200 X200" false (Is "Kod X musi być unikalny w obrębie bloku") None].
Proof. vm_compute. reflexivity. Qed.

(** HaasLatheParseTest *)
Example net_HaasLatheParse : passes (mkPS true false false false false) true false
  [Call (OParse 1) "M10" true (Is "") None;
   Call (OParse 1) "M10 M20" false (Is "Kolejny adres [M] niedozwolony w bloku") None].
Proof. vm_compute. reflexivity. Qed.

(** ParseValueTest *)
Example net_ParseValue : passes (mkPS false true false false false) false true
  [Call (OParse 1) "%" true (Is "") (Some [("%", "")]);
   Call (OParse 1) "O1234" true (Is "") (Some [("O", "1234")]);
   Call (OParse 1) "A500 ,C-2.4 X1.055 G04 (This is comment! )" true (Is "") (Some [("A", "500"); (",C", "-2.4"); ("X", "1.055"); ("G", "04"); ("(", "This is comment! )")]);
   Call (OParse 1) "AB" false (Is "Brak wartości dla adresu [A]") None;
   Call (OParse 1) "/5 A500" true (Is "") (Some [("/", "5"); ("A", "500")]);
   Call (OParse 1) "A#5 ,C-#2" true (Is "") (Some [("A", "#5"); (",C", "-#2")]);
   Call (OParse 1) "#4=#5+2" true (Is "") (Some [("#", "4"); ("=", "#5"); ("+", "2")]);
   Call (OParse 1) ",C-[-#1+#2]" true (Is "") (Some [(",C", "-["); ("-", "#1"); ("+", "#2]")]);
   Call (OParse 1) "#2=BIN[#1]" true (Is "") (Some [("#", "2"); ("=", ""); ("BIN", "[#1]")]);
   Call (OParse 1) "GOTO2" true (Is "") (Some [("GOTO", "2")])].
Proof. vm_compute. reflexivity. Qed.

(** HaasMillParseValueTest *)
Example net_HaasMillParseValue : passes (mkPS true false false false false) true true
  [Call (OParse 1) "%" true (Is "") (Some [("%", "")]);
   Call (OParse 1) "O12345" true (Is "") (Some [("O", "12345")]);
   Call (OParse 1) "M10" true (Is "") (Some [("M", "10")]);
   Call (OParse 1) "M10 M20" false (Is "Kolejny adres [M] niedozwolony w bloku") None].
Proof. vm_compute. reflexivity. Qed.

(** MacroCalculationTest *)
Example net_MacroCalculation : passes (mkPS true true false false false) false true
  [Call (OParse 1) "#1=5" true (Is "") None;
   Call (OParse 1) "#2=4" true (Is "") None;
   Call (OParse 1) "#3=SQRT[#1+#2]" true (Is "") None;
   Count 3;
   Holds 1 1 5;
   Holds 2 1 4;
   Holds 3 1 3].
Proof. vm_compute. reflexivity. Qed.

(** MacroFindNearestTest *)
Example net_MacroFindNearest : passes (mkPS true true false false false) false true
  [Call (OParse 1) "#1=5" true (Is "") None;
   Call (OParse 3) "#2=4" true (Is "") None;
   Call (OParse 5) "#2=8" true (Is "") None;
   Call (OParse 7) "#2=16" true (Is "") None;
   Call (OParse 9) "#3=50" true (Is "") None;
   Count 5;
   Holds 1 1 5;
   Holds 2 3 4;
   Holds 2 5 8;
   Holds 2 7 16;
   Holds 3 9 50].
Proof. vm_compute. reflexivity. Qed.

(** MacroLineCalculationTest *)
Example net_MacroLineCalculation : passes (mkPS true true false false false) false true
  [Call (OParse 1) "#1=5" true (Is "") None;
   LineCount 1 1;
   Count 1;
   Holds 1 1 5;
   Call (OParse 1) "#2=4" true (Is "") None;
   LineCount 1 2;
   Count 2;
   Holds 2 1 4;
   Call (OParse 2) "T01" true (Is "") None;
   LineCount 2 0;
   Count 2;
   Call (OParse 3) "#3=SQRT[#1+#2]" true (Is "") None;
   LineCount 3 1;
   Count 3;
   Holds 3 3 3].
Proof. vm_compute. reflexivity. Qed.

(** CodeGroupsTest *)
Example net_CodeGroups : passes (mkPS true true false false false) false true
  [Call (OParse 1) "G04" true (Is "") None;
   Call (OParse 1) "G4 G02" true (Is "") None;
   Call (OParse 1) "G4 G5.1" false (Is "G5.1 i G4 są w tej samej Grupie Kodów = 0") None;
   Call (OParse 1) "G10" true MAny None;
   Call (OParse 1) "#1=5.4" true (Is "") None;
   Call (OParse 1) "G2.2 G#1" true (Is "") None;
   Call (OParse 1) "G5.1 G#1" false (Is "G5.4 i G5.1 są w tej samej Grupie Kodów = 0") None;
   Call (OParse 1) "G5.1 G#2" false (Is "Brak wartości dla #2") None;
   Call (OParse 1) "M14" true (Is "") None;
   Call (OParse 1) "M14 M22" true (Is "") None;
   Call (OParse 1) "M14 M15" false (Is "M15 i M14 są w tej samej Grupie Kodów = 0") None;
   Call (OParse 1) "M10" true MAny None;
   Call (OParse 1) "#3=15" true (Is "") None;
   Call (OParse 1) "M22 M#3" true (Is "") None;
   Call (OParse 1) "M14 M#3" false (Is "M15 i M14 są w tej samej Grupie Kodów = 0") None;
   Call (OParse 1) "M15 M#2" false (Is "Brak wartości dla #2") None].
Proof. vm_compute. reflexivity. Qed.

(** ConvertLengthTest *)
Example net_ConvertLength : passes (mkPS false true false false false) false true
  [Call (OConvert MetricToImperial) "A500 X1.055" true (Is "") (Some [("A", "500"); ("X", "0.0415")]);
   Call (OConvert ImperialToMetric) "X0.2756" true (Is "") (Some [("X", "7.0002")]);
   Call (OConvert ImperialToMetric) "/5 X6" true (Is "") (Some [("/", "5"); ("X", "6")])].
Proof. vm_compute. reflexivity. Qed.

(** RemoveNumberingTest *)
Example net_RemoveNumbering : passes (mkPS false false false false false) false true
  [Call ORemoveNumbering "N5 X4" true (Is "") (Some [("X", "4")]);
   Call ORemoveNumbering ":6 Y6" true (Is "") (Some [("Y", "6")])].
Proof. vm_compute. reflexivity. Qed.

(** RenumberTest *)
Example net_Renumber : passes (mkPS false false false false false) false true
  [SReset;
   Call (ORenumber ren_settings) "N5 X4" true (Is "") (Some [(":", "0001"); ("X", "4")]);
   Call (ORenumber ren_settings) ":6 Y6" true (Is "") (Some [("Y", "6")]);
   Call (ORenumber ren_settings) "X3" true (Is "") (Some [("X", "3")]);
   Call (ORenumber ren_settings) "N7 X3" true (Is "") (Some [(":", "0004"); ("X", "3")]);
   Call (ORenumber ren_settings) "N7 X3" true (Is "") (Some [("X", "3")]);
   Call (ORenumber ren_settings) "N8 X3" true (Is "") (Some [(":", "0001"); ("X", "3")]);
   SStart 5;
   Call (ORenumber ren_settings) "N9 X3" true (Is "") (Some [("X", "3")]);
   Call (ORenumber ren_settings) "N10 X3" true (Is "") (Some [(":", "0005"); ("X", "3")])].
Proof. vm_compute. reflexivity. Qed.

(** RotateAxesTest *)
Example net_RotateAxes : passes (mkPS false true false false false) false true
  [Call (ORotate X90) "G2 G17 X5 Y3 Z7 I-2 J-3 K-4" true (Is "") (Some [("G", "2"); ("G", "18"); ("X", "5"); ("Z", "-3"); ("Y", "7"); ("I", "-2"); ("K", "3"); ("J", "-4")])].
Proof. vm_compute. reflexivity. Qed.

(** KinematicsTest *)
Example net_Kinematics : passes (mkPS true true true true true) false true
  [Call (OParse 1) "S30000" false (Is "Wartość S [30000] wyższa niż maksymalna dozwolona wartość 10000") None;
   Call (OParse 1) "S3000" true (Is "") None;
   Call (OParse 1) "T50" false (Is "Wartość T [50] wyższa niż maksymalna dozwolona wartość 30") None;
   Call (OParse 1) "T05" true (Is "") None;
   Call (OParse 1) "Z-100" true (Is "") None;
   Call (OParse 1) "Z-300" false (Is "Wartość Z [-300.000000] poza zakresem [-200.000000, 800.000000]") None].
Proof. vm_compute. reflexivity. Qed.

(** RemoveCommentTest *)
Example net_RemoveComment : passes (mkPS false false false false false) false true
  [Call ORemoveComment "A500 ,C-2.4 X1.055 G04 (This is comment! )" true (Is "") (Some [("A", "500"); (",C", "-2.4"); ("X", "1.055"); ("G", "04")])].
Proof. vm_compute. reflexivity. Qed.

(** RemoveOptionalBlockTest *)
Example net_RemoveOptionalBlock : passes (mkPS false false false false false) false true
  [Call ORemoveOptional "/5 A500" true (Is "") (Some [("A", "500")])].
Proof. vm_compute. reflexivity. Qed.

(** PathTest: the lines in turn, the path and the ranges after each. *)
Definition tol : dbl := d_of_ratio false 1 (10 ^ 8).
Definition is (a b : dbl) : bool := near tol a b.

Definition path_of (p : parser) (t : string) (total work fast tool_total : dbl) : bool :=
  match pr_calc p with
  | None => false
  | Some c =>
      let r := c_path (cl_calc c) in
      String.eqb (p_tool_id r) t && is (p_total r) total && is (p_work r) work && is (p_fast r) fast && is (p_tool_total r) tool_total
      && Nat.eqb (List.length (c_range (cl_calc c))) 6
  end.

Definition axis_of (p : parser) (w : string) (lo v hi : Z) : bool :=
  match pr_calc p with
  | None => false
  | Some c => match assoc w (c_range (cl_calc c)) with
              | Some (a, b, d) => deqb a (dz lo) && deqb b (dz v) && deqb d (dz hi)
              | None => false
              end
  end.

Definition path_settings : parser_settings := mkPS true true true false false.

Fixpoint walk (l : list (string * (parser -> bool))) (line : Z) (p : parser) : list bool :=
  match l with
  | [] => []
  | (t, q) :: l =>
      let '(p', v, a) := run false path_settings (OParse line) t p in
      (match a with Answer true m => String.eqb (text m) "" | _ => false end && q p') :: walk l (line + 1) p'
  end.

Definition at_start (metric : bool) (p : parser) : bool :=
  path_of p "4" dzero dzero dzero dzero && axis_of p "X" 0 0 0 && axis_of p "Y" 0 0 0 && axis_of p "Z" 200 200 200
  && Bool.eqb (pr_metric p) metric.

Example net_Path :
  walk [("T4 M6", at_start true); ("G20", at_start false); ("M14", at_start false); ("G2", at_start false); ("(G2)", at_start false);
        ("/G2", at_start false);
        ("G0 X4 Y5 Z2", fun p =>
           let s := d_of_ratio false 1981035082980612 (10 ^ 13) in
           path_of p "4" s dzero s s && axis_of p "X" 0 4 4 && axis_of p "Y" 0 5 5 && axis_of p "Z" 2 2 200 && negb (pr_metric p));
        ("X3 Y4", fun p =>
           let s := d_of_ratio false 19951772186043431 (10 ^ 14) in
           path_of p "4" s dzero (d_of_ratio false 14142135623731 (10 ^ 13)) s
           && axis_of p "X" 0 3 4 && axis_of p "Y" 0 4 5 && axis_of p "Z" 2 2 200 && negb (pr_metric p))]
       1 (start false true) = repeat true 8.
Proof. vm_compute. reflexivity. Qed.

(** SplitFileTextTest and SplitFileTextTest2. *)
Definition split_at : file_splitting := mkSplit STText 0 0 0 "(txt)" false "G0 Z400".
Definition split_of (data : list string) : split_result :=
  split_file lit libm atan_series log_series dabs 90 (cf false) split_at data (start false true).

Example net_SplitFileText :
  let '(_, ps, a) := split_of ["%"; "O1234"; "(comment)"; "G0 X0 Y0 Z0"; "G1 X1 (txt)"; "G0 Y3"; "G1 Z5"; "G0 Y6 (txt)"; "M30"; "%"] in
  a = Answer true MNone /\ map (fun p => List.length p) ps = [5; 5; 4]%nat /\
  map (map (fun w => (until_zero (attr_word w), until_zero (value_text w)))) (hd [] ps) =
  [[("%", "")]; [("O", "1234")]; [("(", "comment)")];
   [("N", "1"); ("G", "0"); ("X", "0"); ("Y", "0"); ("Z", "0")]; [("N", "2"); ("G", "0"); ("Z", "400")]].
Proof. vm_compute. repeat split. Qed.

Definition lines (l : list string) : string := fold_right (fun t r => t ++ crlf ++ r) "" l.

Example net_SplitFileText2 :
  let '(_, h, o, r) := split_texts_call text (fun p => split_of
     ["%"; "O1234"; ""; "(comment)"; "G0 X0 Y0 Z0"; "G1 X1 (txt)"; "G0 Y3"; "G1 Z5"; "G0 Y6 (txt)"; "  "; "M30"; "%"])
     (mkOuts PNull 0 PNull) (start false true) [] in
  r = Ok true /\ o_message o = PNull /\
  exists ps, load (o_value o) h = Ok (CPtrs ps) /\
    map (chars_at h) ps =
    [Some (lines ["%"; "O1234"; ""; "(comment)"; "N1 G0 X0 Y0 Z0"; "N2 G0 Z400"]);
     Some (lines ["N3 G0 Z400"; "N4 G1 X1 (txt)"; "N5 G0 Y3"; "N6 G1 Z5"; "N7 G0 Z400"]);
     Some (lines ["N8 G0 Z400"; "N9 G0 Y6 (txt)"; ""; "N10 M30"; "%"])].
Proof. vm_compute. split; [reflexivity|]. split; [reflexivity|]. eexists. split; reflexivity. Qed.
