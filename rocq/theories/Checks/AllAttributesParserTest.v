(** The cases of parser_ut/fanuc/AllAttributesParserTest.cpp. *)
From Verif Require Import Model.Base Model.Attr Model.Double Model.Macro Model.Grammar Model.Verifiers Model.PathCalc Model.Parser.
Local Open Scope string_scope.
Local Open Scope Z_scope.

Definition words : word_map :=
  [("N", mkWG "N" 1 9999 0 0 false WTnumbering);
   (":", mkWG ":" 1 9999 0 0 false WTnumbering);
   ("#", mkWG "#" 1 9999 0 0 false WTmacro);
   ("G", mkWG "G" 1 99 1 9 false WTcode);
   ("M", mkWG "M" 1 999 0 0 false WTcode);
   ("D", mkWG "D" (-999) 999 0 0 false WTmisc);
   ("F", mkWG "F" 0 999 0 9999 false WTfeed);
   ("T", mkWG "T" 1 999 0 0 false WTmisc);
   ("C", mkWG "C" (-999) 999 0 9999 true WTlength);
   ("X", mkWG "X" (-999) 999 0 9999 true WTlength);
   ("Y", mkWG "Y" (-999) 999 0 9999 true WTlength);
   ("Z", mkWG "Z" (-999) 999 0 9999 true WTlength);
   ("C2", mkWG "C2" (-999) 999 0 9999 true WTassignable);
   (",C", mkWG ",C" (-999) 999 0 9999 false WTmisc);
   (",R", mkWG ",R" (-999) 999 0 9999 false WTmisc);
   ("=", mkWG "=" (-999) 999 0 9999 false WTcalc);
   ("+", mkWG "+" (-999) 999 0 9999 false WTcalc);
   ("-", mkWG "-" (-999) 999 0 9999 false WTcalc);
   ("*", mkWG "*" (-999) 999 0 9999 false WTcalc);
   ("/", mkWG "/" (-999) 999 0 9999 false WTcalc);
   ("GOTO", mkWG "GOTO" 1 9999 0 0 false WTmisc)].

Definition functions : list string :=
  ["SIN"; "COS"; "TAN"; "ATAN"; "SQRT"; "ABS"; "ROUND"; "FIX"; "FUP"; "OR"; "XOR"; "AND"; "BIN"; "BCD"; "OR"; "XOR"; "AND"; "IF"; "WHILE"; "DO"; "END"; "EQ"; "LE"].

Definition cf : config := mkConfig (mkFG words words) functions [] [] false.
Definition off : parser_settings := mkPS false false false false false.
Definition p0 : parser := parser_new cf true.
Definition unused (x : dbl) : dbl := x.

(** The verdict, the words, and for an accepted line that there is no message. *)
Definition shown (r : parser * block * answer) : option (bool * block) :=
  match r with
  | (_, v, Answer true MNone) | (_, v, Answer true (MGrammar [])) => Some (true, v)
  | (_, v, Answer false _) => Some (false, v)
  | _ => None
  end.

Definition parsed (data : string) := shown (parse (fun _ => dzero) (fun _ => unused) unused unused unused 0 cf off 1 data p0).
Definition uncommented (data : string) := shown (remove_comment_line data p0).
Definition unblocked (data : string) := shown (remove_optional_line data p0).

(** generalAttributes *)
Example aap_generalAttributes : Forall (fun x => parsed (fst x) = Some (snd x))
  [("G10", (true, [ADec (mkDec "G" None None None None (Some "10") None None None)]));
   (":100 G02", (true, [ADec (mkDec ":" None None None None (Some "100") None None None); ADec (mkDec "G" None None None None (Some "02") None None None)]));
   ("G2.2 X-100", (true, [ADec (mkDec "G" None None None None (Some "2") (Some "."%char) (Some "2") None); ADec (mkDec "X" None (Some "-"%char) None None (Some "100") None None None)]));
   ("G2.2 X-100.055", (true, [ADec (mkDec "G" None None None None (Some "2") (Some "."%char) (Some "2") None); ADec (mkDec "X" None (Some "-"%char) None None (Some "100") (Some "."%char) (Some "055") None)]));
   ("N100 G02 X100 Y200. Z300.55 M14", (true, [ADec (mkDec "N" None None None None (Some "100") None None None); ADec (mkDec "G" None None None None (Some "02") None None None); ADec (mkDec "X" None None None None (Some "100") None None None); ADec (mkDec "Y" None None None None (Some "200") (Some "."%char) None None); ADec (mkDec "Z" None None None None (Some "300") (Some "."%char) (Some "55") None); ADec (mkDec "M" None None None None (Some "14") None None None)]));
   ("N100G02X100Y200.Z300.55M14", (true, [ADec (mkDec "N" None None None None (Some "100") None None None); ADec (mkDec "G" None None None None (Some "02") None None None); ADec (mkDec "X" None None None None (Some "100") None None None); ADec (mkDec "Y" None None None None (Some "200") (Some "."%char) None None); ADec (mkDec "Z" None None None None (Some "300") (Some "."%char) (Some "55") None); ADec (mkDec "M" None None None None (Some "14") None None None)]));
   ("G2.2 -100", (false, [ADec (mkDec "G" None None None None (Some "2") (Some "."%char) (Some "2") None)]));
   ("G2.2 100", (false, [ADec (mkDec "G" None None None None (Some "2") (Some "."%char) (Some "2") None)]));
   ("G2.2 X-100 Z", (false, [ADec (mkDec "G" None None None None (Some "2") (Some "."%char) (Some "2") None); ADec (mkDec "X" None (Some "-"%char) None None (Some "100") None None None)]));
   ("M30F", (false, [ADec (mkDec "M" None None None None (Some "30") None None None)]));
   ("M-30", (false, []));
   ("X-100.", (true, [ADec (mkDec "X" None (Some "-"%char) None None (Some "100") (Some "."%char) None None)]));
   ("X-100.55", (true, [ADec (mkDec "X" None (Some "-"%char) None None (Some "100") (Some "."%char) (Some "55") None)]));
   ("X-100.55 4", (false, [ADec (mkDec "X" None (Some "-"%char) None None (Some "100") (Some "."%char) (Some "55") None)]));
   ("X-100 55", (false, [ADec (mkDec "X" None (Some "-"%char) None None (Some "100") None None None)]));
   ("X-100. 55", (false, [ADec (mkDec "X" None (Some "-"%char) None None (Some "100") (Some "."%char) None None)]));
   ("T5 55", (false, [ADec (mkDec "T" None None None None (Some "5") None None None)]));
   (",R5", (true, [ADec (mkDec ",R" None None None None (Some "5") None None None)]));
   (",C7", (true, [ADec (mkDec ",C" None None None None (Some "7") None None None)]));
   ("A7", (false, []));
   ("N100000", (false, []));
   ("X-100000", (false, []));
   ("X-100000.", (false, []));
   ("X-100000.5364365", (false, []));
   ("X-10.543634654", (false, []));
   ("G2.2 X.1", (true, [ADec (mkDec "G" None None None None (Some "2") (Some "."%char) (Some "2") None); ADec (mkDec "X" None None None None None (Some "."%char) (Some "1") None)]));
   ("G2.2 X-.1", (true, [ADec (mkDec "G" None None None None (Some "2") (Some "."%char) (Some "2") None); ADec (mkDec "X" None (Some "-"%char) None None None (Some "."%char) (Some "1") None)]));
   ("D-4", (true, [ADec (mkDec "D" None (Some "-"%char) None None (Some "4") None None None)]));
   ("D40", (true, [ADec (mkDec "D" None None None None (Some "40") None None None)]));
   ("F.1", (true, [ADec (mkDec "F" None None None None None (Some "."%char) (Some "1") None)]));
   ("/G02", (true, [ADec (mkDec "/" None None None None None None None None); ADec (mkDec "G" None None None None (Some "02") None None None)]));
   ("/ G02", (true, [ADec (mkDec "/" None None None None None None None None); ADec (mkDec "G" None None None None (Some "02") None None None)]));
   ("/1 G02", (true, [ADec (mkDec "/" None None None None (Some "1") None None None); ADec (mkDec "G" None None None None (Some "02") None None None)]));
   ("/1/2 G02", (true, [ADec (mkDec "/" None None None None (Some "1") None None None); ADec (mkDec "/" None None None None (Some "2") None None None); ADec (mkDec "G" None None None None (Some "02") None None None)]));
   ("// G02", (false, []));
   ("//2 G02", (false, []));
   (":100 , G02", (true, [ADec (mkDec ":" None None None None (Some "100") None None None); AChr "," zero; ADec (mkDec "G" None None None None (Some "02") None None None)]));
   (":100 ,G02", (false, [ADec (mkDec ":" None None None None (Some "100") None None None)]));
   (":100,G02", (false, [ADec (mkDec ":" None None None None (Some "100") None None None)]));
   (":100, G02", (true, [ADec (mkDec ":" None None None None (Some "100") None None None); AChr "," zero; ADec (mkDec "G" None None None None (Some "02") None None None)]));
   ("#10=5", (true, [ADec (mkDec "#" None None None None (Some "10") None None None); ADec (mkDec "=" None None None None (Some "5") None None None)]));
   ("#10=#20", (true, [ADec (mkDec "#" None None None None (Some "10") None None None); ADec (mkDec "=" None None None (Some "#") (Some "20") None None None)]));
   ("#10=#20+5", (true, [ADec (mkDec "#" None None None None (Some "10") None None None); ADec (mkDec "=" None None None (Some "#") (Some "20") None None None); ADec (mkDec "+" None None None None (Some "5") None None None)]));
   ("#10=#20/#30", (true, [ADec (mkDec "#" None None None None (Some "10") None None None); ADec (mkDec "=" None None None (Some "#") (Some "20") None None None); ADec (mkDec "/" None None None (Some "#") (Some "30") None None None)]));
   ("#10=#20-#30", (true, [ADec (mkDec "#" None None None None (Some "10") None None None); ADec (mkDec "=" None None None (Some "#") (Some "20") None None None); ADec (mkDec "-" None None None (Some "#") (Some "30") None None None)]));
   ("#10=#20-30", (true, [ADec (mkDec "#" None None None None (Some "10") None None None); ADec (mkDec "=" None None None (Some "#") (Some "20") None None None); ADec (mkDec "-" None None None None (Some "30") None None None)]));
   ("#10=6*7", (true, [ADec (mkDec "#" None None None None (Some "10") None None None); ADec (mkDec "=" None None None None (Some "6") None None None); ADec (mkDec "*" None None None None (Some "7") None None None)]));
   ("#10=-5-#20", (true, [ADec (mkDec "#" None None None None (Some "10") None None None); ADec (mkDec "=" None (Some "-"%char) None None (Some "5") None None None); ADec (mkDec "-" None None None (Some "#") (Some "20") None None None)]));
   ("G-#10", (true, [ADec (mkDec "G" None (Some "-"%char) None (Some "#") (Some "10") None None None)]));
   ("G#10", (true, [ADec (mkDec "G" None None None (Some "#") (Some "10") None None None)]));
   ("M98 T-#1", (true, [ADec (mkDec "M" None None None None (Some "98") None None None); ADec (mkDec "T" None (Some "-"%char) None (Some "#") (Some "1") None None None)]));
   ("N100T#101T#102M6(#6 CENTER DRILL)", (true, [ADec (mkDec "N" None None None None (Some "100") None None None); ADec (mkDec "T" None None None (Some "#") (Some "101") None None None); ADec (mkDec "T" None None None (Some "#") (Some "102") None None None); ADec (mkDec "M" None None None None (Some "6") None None None); AStr "(" "#6 CENTER DRILL"]));
   ("#[#1+#2-12]", (true, [ADec (mkDec "#" None None (Some "[") (Some "#") (Some "1") None None None); ADec (mkDec "+" None None None (Some "#") (Some "2") None None None); ADec (mkDec "-" None None None None (Some "12") None None (Some "]"))]));
   ("G01X[#1+#2]F#3", (true, [ADec (mkDec "G" None None None None (Some "01") None None None); ADec (mkDec "X" None None (Some "[") (Some "#") (Some "1") None None None); ADec (mkDec "+" None None None (Some "#") (Some "2") None None (Some "]")); ADec (mkDec "F" None None None (Some "#") (Some "3") None None None)]));
   ("G01 X-[#1-#2] F#9", (true, [ADec (mkDec "G" None None None None (Some "01") None None None); ADec (mkDec "X" None (Some "-"%char) (Some "[") (Some "#") (Some "1") None None None); ADec (mkDec "-" None None None (Some "#") (Some "2") None None (Some "]")); ADec (mkDec "F" None None None (Some "#") (Some "9") None None None)]));
   ("X-[-#1+#2]", (true, [ADec (mkDec "X" None (Some "-"%char) (Some "[") None None None None None); ADec (mkDec "-" None None None (Some "#") (Some "1") None None None); ADec (mkDec "+" None None None (Some "#") (Some "2") None None (Some "]"))]));
   ("T-[-#1+#2]", (true, [ADec (mkDec "T" None (Some "-"%char) (Some "[") None None None None None); ADec (mkDec "-" None None None (Some "#") (Some "1") None None None); ADec (mkDec "+" None None None (Some "#") (Some "2") None None (Some "]"))]));
   ("#2=BIN[#1]", (true, [ADec (mkDec "#" None None None None (Some "2") None None None); ADec (mkDec "=" None None None None None None None None); ADec (mkDec "BIN" None None (Some "[") (Some "#") (Some "1") None None (Some "]"))]));
   ("#1=SIN[[[#2+#3]*#4+#5]*#6]", (true, [ADec (mkDec "#" None None None None (Some "1") None None None); ADec (mkDec "=" None None None None None None None None); ADec (mkDec "SIN" None None (Some "[[[") (Some "#") (Some "2") None None None); ADec (mkDec "+" None None None (Some "#") (Some "3") None None (Some "]")); ADec (mkDec "*" None None None (Some "#") (Some "4") None None None); ADec (mkDec "+" None None None (Some "#") (Some "5") None None (Some "]")); ADec (mkDec "*" None None None (Some "#") (Some "6") None None (Some "]"))]));
   ("#101=#100/2", (true, [ADec (mkDec "#" None None None None (Some "101") None None None); ADec (mkDec "=" None None None (Some "#") (Some "100") None None None); ADec (mkDec "/" None None None None (Some "2") None None None)]));
   ("#113=8/2", (true, [ADec (mkDec "#" None None None None (Some "113") None None None); ADec (mkDec "=" None None None None (Some "8") None None None); ADec (mkDec "/" None None None None (Some "2") None None None)]));
   ("#113=8*2", (true, [ADec (mkDec "#" None None None None (Some "113") None None None); ADec (mkDec "=" None None None None (Some "8") None None None); ADec (mkDec "*" None None None None (Some "2") None None None)]));
   ("#113=[8/2]", (true, [ADec (mkDec "#" None None None None (Some "113") None None None); ADec (mkDec "=" None None (Some "[") None (Some "8") None None None); ADec (mkDec "/" None None None None (Some "2") None None (Some "]"))]));
   ("#113=8/2]", (false, [ADec (mkDec "#" None None None None (Some "113") None None None); ADec (mkDec "=" None None None None (Some "8") None None None)]));
   ("#113=[8*2]", (true, [ADec (mkDec "#" None None None None (Some "113") None None None); ADec (mkDec "=" None None (Some "[") None (Some "8") None None None); ADec (mkDec "*" None None None None (Some "2") None None (Some "]"))]));
   ("#113=8*2]", (false, [ADec (mkDec "#" None None None None (Some "113") None None None); ADec (mkDec "=" None None None None (Some "8") None None None)]));
   ("#113=[[8/2]]", (true, [ADec (mkDec "#" None None None None (Some "113") None None None); ADec (mkDec "=" None None (Some "[[") None (Some "8") None None None); ADec (mkDec "/" None None None None (Some "2") None None (Some "]]"))]));
   ("#113=[8/2]]", (false, [ADec (mkDec "#" None None None None (Some "113") None None None); ADec (mkDec "=" None None (Some "[") None (Some "8") None None None)]));
   ("#113=8/2]]", (false, [ADec (mkDec "#" None None None None (Some "113") None None None); ADec (mkDec "=" None None None None (Some "8") None None None)]));
   ("#113=[[8*2]]", (true, [ADec (mkDec "#" None None None None (Some "113") None None None); ADec (mkDec "=" None None (Some "[[") None (Some "8") None None None); ADec (mkDec "*" None None None None (Some "2") None None (Some "]]"))]));
   ("#113=[8*2]]", (false, [ADec (mkDec "#" None None None None (Some "113") None None None); ADec (mkDec "=" None None (Some "[") None (Some "8") None None None)]));
   ("#113=8*2]]", (false, [ADec (mkDec "#" None None None None (Some "113") None None None); ADec (mkDec "=" None None None None (Some "8") None None None)]));
   ("#3=#1 OR #2", (true, [ADec (mkDec "#" None None None None (Some "3") None None None); ADec (mkDec "=" None None None (Some "#") (Some "1") None None None); ADec (mkDec "OR" None None None (Some "#") (Some "2") None None None)]));
   ("GOTO#2", (true, [ADec (mkDec "GOTO" None None None (Some "#") (Some "2") None None None)]));
   ("GOTO2", (true, [ADec (mkDec "GOTO" None None None None (Some "2") None None None)]));
   ("IF[#19EQ0]GOTO10", (true, [ADec (mkDec "IF" None None (Some "[") (Some "#") (Some "19") None None None); ADec (mkDec "EQ" None None None None (Some "0") None None (Some "]")); ADec (mkDec "GOTO" None None None None (Some "10") None None None)]));
   ("WHILE[#2 LE 10]DO 1", (true, [ADec (mkDec "WHILE" None None (Some "[") (Some "#") (Some "2") None None None); ADec (mkDec "LE" None None None None (Some "10") None None (Some "]")); ADec (mkDec "DO" None None None None (Some "1") None None None)]));
   ("END 1", (true, [ADec (mkDec "END" None None None None (Some "1") None None None)]));
   ("M10.", (false, []));
   ("#5=[#3-20]/5*SQRT[ABS[-#1+#2]]", (true, [ADec (mkDec "#" None None None None (Some "5") None None None); ADec (mkDec "=" None None (Some "[") (Some "#") (Some "3") None None None); ADec (mkDec "-" None None None None (Some "20") None None (Some "]")); ADec (mkDec "/" None None None None (Some "5") None None None); ADec (mkDec "*" None None None None None None None None); ADec (mkDec "SQRT" None None (Some "[") None None None None None); ADec (mkDec "ABS" None None (Some "[") None None None None None); ADec (mkDec "-" None None None (Some "#") (Some "1") None None None); ADec (mkDec "+" None None None (Some "#") (Some "2") None None (Some "]]"))]));
   ("N100 G02 X100 Y200. Z300.55 M14 X200", (false, [ADec (mkDec "N" None None None None (Some "100") None None None); ADec (mkDec "G" None None None None (Some "02") None None None); ADec (mkDec "X" None None None None (Some "100") None None None); ADec (mkDec "Y" None None None None (Some "200") (Some "."%char) None None); ADec (mkDec "Z" None None None None (Some "300") (Some "."%char) (Some "55") None); ADec (mkDec "M" None None None None (Some "14") None None None); ADec (mkDec "X" None None None None (Some "200") None None None)]));
   ("C2=5", (true, [ADec (mkDec "C2" (Some "="%char) None None None (Some "5") None None None)]));
   ("C2 = 5", (true, [ADec (mkDec "C2" (Some "="%char) None None None (Some "5") None None None)]));
   ("C25", (true, [ADec (mkDec "C" None None None None (Some "25") None None None)]));
   ("G1 Z[-7.8-#26]", (true, [ADec (mkDec "G" None None None None (Some "1") None None None); ADec (mkDec "Z" None None (Some "[") None None None None None); ADec (mkDec "-" None None None None (Some "7") (Some "."%char) (Some "8") None); ADec (mkDec "-" None None None (Some "#") (Some "26") None None (Some "]"))]))].
Proof. repeat (constructor; [vm_compute; reflexivity|]). constructor. Qed.

(** programStart *)
Example aap_programStart : Forall (fun x => parsed (fst x) = Some (snd x))
  [("%", (true, [AChr "%" zero]));
   ("%   ", (true, [AChr "%" zero]));
   ("%j", (false, []));
   ("%5", (false, []));
   ("% X100", (false, []))].
Proof. repeat (constructor; [vm_compute; reflexivity|]). constructor. Qed.

(** programName *)
Example aap_programName : Forall (fun x => parsed (fst x) = Some (snd x))
  [("O1234", (true, [AStr "O" "1234"]));
   ("O1234     ", (true, [AStr "O" "1234"]));
   ("OA", (true, [AStr "O" "A"]));
   ("O12", (true, [AStr "O" "12"]));
   ("O1234.", (false, [AStr "O" "1234"]));
   ("O1234.5", (false, [AStr "O" "1234"]));
   ("O1234A", (true, [AStr "O" "1234A"]));
   ("O12.34", (false, [AStr "O" "12"]));
   ("O1234 A50", (false, [AStr "O" "1234"]));
   ("O1234 O1234", (false, [AStr "O" "1234"]));
   ("O0000", (true, [AStr "O" "0000"]));
   ("O00001", (true, [AStr "O" "00001"]));
   ("O44444", (true, [AStr "O" "44444"]));
   ("O1", (true, [AStr "O" "1"]));
   ("O", (false, []));
   ("O1234(comment)", (true, [AStr "O" "1234"; AStr "(" "comment"]))].
Proof. repeat (constructor; [vm_compute; reflexivity|]). constructor. Qed.

(** comment *)
Example aap_comment : Forall (fun x => parsed (fst x) = Some (snd x))
  [("(This is my comment! )", (true, [AStr "(" "This is my comment! "]));
   ("()", (true, [AStr "(" ""]));
   ("(This is my comment! )    ", (true, [AStr "(" "This is my comment! "]));
   ("N50 ( Yet another comment)", (true, [ADec (mkDec "N" None None None None (Some "50") None None None); AStr "(" " Yet another comment"]));
   ("(This is my comment!", (false, []));
   ("This is my comment!)", (false, []));
   ("(1/2"" DRILL)", (true, [AStr "(" "1/2"" DRILL"]))].
Proof. repeat (constructor; [vm_compute; reflexivity|]). constructor. Qed.

(** removeComment *)
Example aap_removeComment : Forall (fun x => uncommented (fst x) = Some (snd x))
  [("(This is my comment! )", (true, []));
   ("()", (true, []));
   ("(This is my comment! )    ", (true, []));
   ("N50 ( Yet another comment)", (true, [ADec (mkDec "N" None None None None (Some "50") None None None)]));
   ("(This is my comment!", (false, []));
   ("This is my comment!)", (false, []));
   ("(1/2"" DRILL)", (true, []))].
Proof. repeat (constructor; [vm_compute; reflexivity|]). constructor. Qed.

(** removeOptionalBlock *)
Example aap_removeOptionalBlock : Forall (fun x => unblocked (fst x) = Some (snd x))
  [("/G02", (true, [ADec (mkDec "/" None None None None None None None None); ADec (mkDec "G" None None None None (Some "02") None None None)]));
   ("/ G02", (true, [ADec (mkDec "/" None None None None None None None None); ADec (mkDec "G" None None None None (Some "02") None None None)]));
   ("/] G02", (false, []));
   ("/1 G02", (true, [ADec (mkDec "G" None None None None (Some "02") None None None)]));
   ("/1] G02", (false, []));
   ("/1/2 G02", (true, [ADec (mkDec "G" None None None None (Some "02") None None None)]));
   ("// G02", (false, []));
   ("//2 G02", (false, []))].
Proof. repeat (constructor; [vm_compute; reflexivity|]). constructor. Qed.
