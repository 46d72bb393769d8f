(** The cases of parser_ut/heidenhain/AllAttributesParserTest.cpp. *)
From Verif Require Import Model.Base Model.Heidenhain.
Local Open Scope string_scope.
Local Open Scope Z_scope.

(** How [qi::int_] makes a number of digits. *)
Definition number (sign : option ascii) (digits : string) : option Z := Some (digits_val digits).

Definition parsed (data : string) : option (bool * list hattr) :=
  match hh_parse number false (Some false) data "" with
  | Ok (_, (ok, v, m)) => if ok && negb (String.eqb m "") then None else Some (ok, v)
  | Exc _ => None
  end.

Example hh_comment : Forall (fun x => parsed (fst x) = Some (snd x))
  [(";This is my comment! ", (true, [HComment ";"%char "This is my comment! " zero]));
   ("; This is my comment! ", (true, [HComment ";"%char " This is my comment! " zero]));
   (";This is my comment! ~", (true, [HComment ";"%char "This is my comment! " "~"%char]));
   (";", (true, [HComment ";"%char "" zero]));
   (";~", (true, [HComment ";"%char "" "~"%char]));
   (";This is~ my comment!", (false, []));
   (";~This is my comment!", (false, []));
   (";This is my comment! ~~", (false, []));
   ("44 ;This is my comment! ", (true, [HNumber 44; HComment ";"%char "This is my comment! " zero]));
   ("44;This is my comment! ", (false, []))].
Proof. repeat (constructor; [vm_compute; reflexivity|]). constructor. Qed.

Example hh_programBeginEnd : Forall (fun x => parsed (fst x) = Some (snd x))
  [("BEGIN PGM hei530_origins MM", (true, [HProgram BEbegin "hei530_origins" Umm]));
   (" BEGIN   PGM    hei530_origins    MM   ", (true, [HProgram BEbegin "hei530_origins" Umm]));
   ("BEGINPGM hei530_origins MM", (false, []));
   ("BEGIN PGMhei530_origins MM", (false, []));
   ("BEGIN PGM hei530_originsMM", (false, []));
   ("0 BEGIN PGM hei530_origins MM", (true, [HNumber 0; HProgram BEbegin "hei530_origins" Umm]));
   ("0    BEGIN PGM hei530_origins MM", (true, [HNumber 0; HProgram BEbegin "hei530_origins" Umm]));
   ("0	BEGIN PGM hei530_origins MM", (true, [HNumber 0; HProgram BEbegin "hei530_origins" Umm]));
   ("0BEGIN PGM hei530_origins MM", (false, []));
   ("BEGIN hei530_origins MM", (false, []));
   ("BEGIN PGMbug hei530_origins MM", (false, []));
   ("BEGINbug PGM hei530_origins MM", (false, []));
   ("3 BEGIN bug PGM hei530_origins MM", (false, [HNumber 3]));
   ("BEGIN PGM hei530 origins MM", (false, []));
   ("BEGIN PGM hei530_origins MMbug", (false, []));
   ("BEGIN PGM hei530_origins MM bug", (false, []));
   ("END PGM hei530_origins INCH", (true, [HProgram BEend "hei530_origins" Uinch]));
   ("8 END PGM hei530_origins INCH", (true, [HNumber 8; HProgram BEend "hei530_origins" Uinch]));
   ("-8 END PGM hei530_origins INCH", (false, []));
   ("8. END PGM hei530_origins INCH", (false, []));
   ("8.2 END PGM hei530_origins INCH", (false, []));
   ("8,2 END PGM hei530_origins INCH", (false, []));
   ("0 BEGIN PGM hei530_origins MM ;This is my comment! ", (true, [HNumber 0; HProgram BEbegin "hei530_origins" Umm; HComment ";"%char "This is my comment! " zero]));
   ("0 BEGIN PGM hei530_origins MM;This is my comment! ", (false, [HNumber 0]))].
Proof. repeat (constructor; [vm_compute; reflexivity|]). constructor. Qed.

Example hh_generalAttribute : Forall (fun x => parsed (fst x) = Some (snd x))
  [("1 BLK FORM 0.1 Z X+0 Y+0 Z-50", (true, [HNumber 1; HGeneral "BLK" None None None None None None; HGeneral "FORM" None None (Some "0") (Some "."%char) (Some "1") None; HGeneral "Z" None None None None None None; HGeneral "X" (Some "+"%char) None (Some "0") None None None; HGeneral "Y" (Some "+"%char) None (Some "0") None None None; HGeneral "Z" (Some "-"%char) None (Some "50") None None None]));
   ("2 BLK FORM 0.2 X+100 Y+100 Z+0", (true, [HNumber 2; HGeneral "BLK" None None None None None None; HGeneral "FORM" None None (Some "0") (Some "."%char) (Some "2") None; HGeneral "X" (Some "+"%char) None (Some "100") None None None; HGeneral "Y" (Some "+"%char) None (Some "100") None None None; HGeneral "Z" (Some "+"%char) None (Some "0") None None None]));
   ("3 TOOL DEF 6 L+7.5 R+3", (true, [HNumber 3; HGeneral "TOOL" None None None None None None; HGeneral "DEF" None None (Some "6") None None None; HGeneral "L" (Some "+"%char) None (Some "7") (Some "."%char) (Some "5") None; HGeneral "R" (Some "+"%char) None (Some "3") None None None]));
   ("4 TOOL CALL 6 Z S2000 F650 DL+1 DR+0.5", (true, [HNumber 4; HGeneral "TOOL" None None None None None None; HGeneral "CALL" None None (Some "6") None None None; HGeneral "Z" None None None None None None; HGeneral "S" None None (Some "2000") None None None; HGeneral "F" None None (Some "650") None None None; HGeneral "DL" (Some "+"%char) None (Some "1") None None None; HGeneral "DR" (Some "+"%char) None (Some "0") (Some "."%char) (Some "5") None]));
   ("5 L Z+100 R0 FMAX", (true, [HNumber 5; HGeneral "L" None None None None None None; HGeneral "Z" (Some "+"%char) None (Some "100") None None None; HGeneral "R" None None (Some "0") None None None; HGeneral "FMAX" None None None None None None]));
   ("6 L X-10 Y-10 R0 FMAX M6", (true, [HNumber 6; HGeneral "L" None None None None None None; HGeneral "X" (Some "-"%char) None (Some "10") None None None; HGeneral "Y" (Some "-"%char) None (Some "10") None None None; HGeneral "R" None None (Some "0") None None None; HGeneral "FMAX" None None None None None None; HGeneral "M" None None (Some "6") None None None]));
   ("8 APPR LT X+20 Y+20 LEN 15 RR F100", (true, [HNumber 8; HGeneral "APPR" None None None None None None; HGeneral "LT" None None None None None None; HGeneral "X" (Some "+"%char) None (Some "20") None None None; HGeneral "Y" (Some "+"%char) None (Some "20") None None None; HGeneral "LEN" None None (Some "15") None None None; HGeneral "RR" None None None None None None; HGeneral "F" None None (Some "100") None None None]));
   ("9 L X+35 Y+35", (true, [HNumber 9; HGeneral "L" None None None None None None; HGeneral "X" (Some "+"%char) None (Some "35") None None None; HGeneral "Y" (Some "+"%char) None (Some "35") None None None]));
   ("8 APPR LN X+10 Y+20 LEN 15 RR F100", (true, [HNumber 8; HGeneral "APPR" None None None None None None; HGeneral "LN" None None None None None None; HGeneral "X" (Some "+"%char) None (Some "10") None None None; HGeneral "Y" (Some "+"%char) None (Some "20") None None None; HGeneral "LEN" None None (Some "15") None None None; HGeneral "RR" None None None None None None; HGeneral "F" None None (Some "100") None None None]));
   ("8 APPR CT X+10 Y+20 CCA 180 R10 RR F100", (true, [HNumber 8; HGeneral "APPR" None None None None None None; HGeneral "CT" None None None None None None; HGeneral "X" (Some "+"%char) None (Some "10") None None None; HGeneral "Y" (Some "+"%char) None (Some "20") None None None; HGeneral "CCA" None None (Some "180") None None None; HGeneral "R" None None (Some "10") None None None; HGeneral "RR" None None None None None None; HGeneral "F" None None (Some "100") None None None]));
   ("8 APPR LCT X+10 Y+20 R10 RR F100", (true, [HNumber 8; HGeneral "APPR" None None None None None None; HGeneral "LCT" None None None None None None; HGeneral "X" (Some "+"%char) None (Some "10") None None None; HGeneral "Y" (Some "+"%char) None (Some "20") None None None; HGeneral "R" None None (Some "10") None None None; HGeneral "RR" None None None None None None; HGeneral "F" None None (Some "100") None None None]));
   ("23 L X+30 Y+35 RR F100", (true, [HNumber 23; HGeneral "L" None None None None None None; HGeneral "X" (Some "+"%char) None (Some "30") None None None; HGeneral "Y" (Some "+"%char) None (Some "35") None None None; HGeneral "RR" None None None None None None; HGeneral "F" None None (Some "100") None None None]));
   ("24 L Y+20 RR F100", (true, [HNumber 24; HGeneral "L" None None None None None None; HGeneral "Y" (Some "+"%char) None (Some "20") None None None; HGeneral "RR" None None None None None None; HGeneral "F" None None (Some "100") None None None]));
   ("25 DEP LT LEN 12.5 F100 M2", (true, [HNumber 25; HGeneral "DEP" None None None None None None; HGeneral "LT" None None None None None None; HGeneral "LEN" None None (Some "12") (Some "."%char) (Some "5") None; HGeneral "F" None None (Some "100") None None None; HGeneral "M" None None (Some "2") None None None]));
   ("25 DEP LN LEN+20 F100 M2", (true, [HNumber 25; HGeneral "DEP" None None None None None None; HGeneral "LN" None None None None None None; HGeneral "LEN" (Some "+"%char) None (Some "20") None None None; HGeneral "F" None None (Some "100") None None None; HGeneral "M" None None (Some "2") None None None]));
   ("25 DEP CT CCA 180 R+8 F100 M2", (true, [HNumber 25; HGeneral "DEP" None None None None None None; HGeneral "CT" None None None None None None; HGeneral "CCA" None None (Some "180") None None None; HGeneral "R" (Some "+"%char) None (Some "8") None None None; HGeneral "F" None None (Some "100") None None None; HGeneral "M" None None (Some "2") None None None]));
   ("25 DEP LCT X+10 Y+12 R8 F100 M2", (true, [HNumber 25; HGeneral "DEP" None None None None None None; HGeneral "LCT" None None None None None None; HGeneral "X" (Some "+"%char) None (Some "10") None None None; HGeneral "Y" (Some "+"%char) None (Some "12") None None None; HGeneral "R" None None (Some "8") None None None; HGeneral "F" None None (Some "100") None None None; HGeneral "M" None None (Some "2") None None None]));
   ("7 L X+10 Y+40 RL F200 M3", (true, [HNumber 7; HGeneral "L" None None None None None None; HGeneral "X" (Some "+"%char) None (Some "10") None None None; HGeneral "Y" (Some "+"%char) None (Some "40") None None None; HGeneral "RL" None None None None None None; HGeneral "F" None None (Some "200") None None None; HGeneral "M" None None (Some "3") None None None]));
   ("8 L IX+20 IY-15", (true, [HNumber 8; HGeneral "L" None None None None None None; HGeneral "IX" (Some "+"%char) None (Some "20") None None None; HGeneral "IY" (Some "-"%char) None (Some "15") None None None]));
   ("9 L X+60 IY-10", (true, [HNumber 9; HGeneral "L" None None None None None None; HGeneral "X" (Some "+"%char) None (Some "60") None None None; HGeneral "IY" (Some "-"%char) None (Some "10") None None None]));
   ("12 CC X+45 Y+25", (true, [HNumber 12; HGeneral "CC" None None None None None None; HGeneral "X" (Some "+"%char) None (Some "45") None None None; HGeneral "Y" (Some "+"%char) None (Some "25") None None None]));
   ("13 LP PR+30 PA+0 RR F300 M3", (true, [HNumber 13; HGeneral "LP" None None None None None None; HGeneral "PR" (Some "+"%char) None (Some "30") None None None; HGeneral "PA" (Some "+"%char) None (Some "0") None None None; HGeneral "RR" None None None None None None; HGeneral "F" None None (Some "300") None None None; HGeneral "M" None None (Some "3") None None None]));
   ("14 LP PA+60", (true, [HNumber 14; HGeneral "LP" None None None None None None; HGeneral "PA" (Some "+"%char) None (Some "60") None None None]));
   ("15 LP IPA+60", (true, [HNumber 15; HGeneral "LP" None None None None None None; HGeneral "IPA" (Some "+"%char) None (Some "60") None None None]));
   ("16 LP PA+180", (true, [HNumber 16; HGeneral "LP" None None None None None None; HGeneral "PA" (Some "+"%char) None (Some "180") None None None]));
   ("9 CHF 12 F250", (true, [HNumber 9; HGeneral "CHF" None None (Some "12") None None None; HGeneral "F" None None (Some "250") None None None]));
   ("7 RND R5 F100", (true, [HNumber 7; HGeneral "RND" None None None None None None; HGeneral "R" None None (Some "5") None None None; HGeneral "F" None None (Some "100") None None None]));
   ("7 C X+45 Y+25 DR+", (true, [HNumber 7; HGeneral "C" None None None None None None; HGeneral "X" (Some "+"%char) None (Some "45") None None None; HGeneral "Y" (Some "+"%char) None (Some "25") None None None; HGeneral "DR" (Some "+"%char) None None None None None]));
   ("20 CP PA+180 DR+", (true, [HNumber 20; HGeneral "CP" None None None None None None; HGeneral "PA" (Some "+"%char) None (Some "180") None None None; HGeneral "DR" (Some "+"%char) None None None None None]));
   ("11 CR X+70 Y+40 R+20 DR-", (true, [HNumber 11; HGeneral "CR" None None None None None None; HGeneral "X" (Some "+"%char) None (Some "70") None None None; HGeneral "Y" (Some "+"%char) None (Some "40") None None None; HGeneral "R" (Some "+"%char) None (Some "20") None None None; HGeneral "DR" (Some "-"%char) None None None None None]));
   ("15 CTP PR+30 PA+30", (true, [HNumber 15; HGeneral "CTP" None None None None None None; HGeneral "PR" (Some "+"%char) None (Some "30") None None None; HGeneral "PA" (Some "+"%char) None (Some "30") None None None]));
   ("15 CP IPA-1800 IZ+5 DR- RL F50", (true, [HNumber 15; HGeneral "CP" None None None None None None; HGeneral "IPA" (Some "-"%char) None (Some "1800") None None None; HGeneral "IZ" (Some "+"%char) None (Some "5") None None None; HGeneral "DR" (Some "-"%char) None None None None None; HGeneral "RL" None None None None None None; HGeneral "F" None None (Some "50") None None None]));
   ("7 FPOL X+20 Y+30", (true, [HNumber 7; HGeneral "FPOL" None None None None None None; HGeneral "X" (Some "+"%char) None (Some "20") None None None; HGeneral "Y" (Some "+"%char) None (Some "30") None None None]));
   ("8 FL IX+10 Y+20 RR F100", (true, [HNumber 8; HGeneral "FL" None None None None None None; HGeneral "IX" (Some "+"%char) None (Some "10") None None None; HGeneral "Y" (Some "+"%char) None (Some "20") None None None; HGeneral "RR" None None None None None None; HGeneral "F" None None (Some "100") None None None]));
   ("9 FCT PR+15 IPA+30 DR+ R15", (true, [HNumber 9; HGeneral "FCT" None None None None None None; HGeneral "PR" (Some "+"%char) None (Some "15") None None None; HGeneral "IPA" (Some "+"%char) None (Some "30") None None None; HGeneral "DR" (Some "+"%char) None None None None None; HGeneral "R" None None (Some "15") None None None]));
   ("10 FC CCX+20 CCY+15 DR+ R15", (true, [HNumber 10; HGeneral "FC" None None None None None None; HGeneral "CCX" (Some "+"%char) None (Some "20") None None None; HGeneral "CCY" (Some "+"%char) None (Some "15") None None None; HGeneral "DR" (Some "+"%char) None None None None None; HGeneral "R" None None (Some "15") None None None]));
   ("13 FC DR+ R15 CCPR+35 CCPA+40", (true, [HNumber 13; HGeneral "FC" None None None None None None; HGeneral "DR" (Some "+"%char) None None None None None; HGeneral "R" None None (Some "15") None None None; HGeneral "CCPR" (Some "+"%char) None (Some "35") None None None; HGeneral "CCPA" (Some "+"%char) None (Some "40") None None None]));
   ("13 FC DR- R10 P1X+42.929 P1Y+60.071", (true, [HNumber 13; HGeneral "FC" None None None None None None; HGeneral "DR" (Some "-"%char) None None None None None; HGeneral "R" None None (Some "10") None None None; HGeneral "P1X" (Some "+"%char) None (Some "42") (Some "."%char) (Some "929") None; HGeneral "P1Y" (Some "+"%char) None (Some "60") (Some "."%char) (Some "071") None]));
   ("14 FLT AN-70 PDX+50 PDY+53 D10", (true, [HNumber 14; HGeneral "FLT" None None None None None None; HGeneral "AN" (Some "-"%char) None (Some "70") None None None; HGeneral "PDX" (Some "+"%char) None (Some "50") None None None; HGeneral "PDY" (Some "+"%char) None (Some "53") None None None; HGeneral "D" None None (Some "10") None None None]));
   ("13 FC DR- R15 CLSD+ CCX+20 CCY+35", (true, [HNumber 13; HGeneral "FC" None None None None None None; HGeneral "DR" (Some "-"%char) None None None None None; HGeneral "R" None None (Some "15") None None None; HGeneral "CLSD" (Some "+"%char) None None None None None; HGeneral "CCX" (Some "+"%char) None (Some "20") None None None; HGeneral "CCY" (Some "+"%char) None (Some "35") None None None]));
   ("17 FCT DR- R+15 CLSD", (true, [HNumber 17; HGeneral "FCT" None None None None None None; HGeneral "DR" (Some "-"%char) None None None None None; HGeneral "R" (Some "+"%char) None (Some "15") None None None; HGeneral "CLSD" None None None None None None]));
   ("15 FCT IX+20 DR- R20 CCA+90 RX 13", (true, [HNumber 15; HGeneral "FCT" None None None None None None; HGeneral "IX" (Some "+"%char) None (Some "20") None None None; HGeneral "DR" (Some "-"%char) None None None None None; HGeneral "R" None None (Some "20") None None None; HGeneral "CCA" (Some "+"%char) None (Some "90") None None None; HGeneral "RX" None None (Some "13") None None None]));
   ("16 FL IPR+35 PA+0 RPR 13", (true, [HNumber 16; HGeneral "FL" None None None None None None; HGeneral "IPR" (Some "+"%char) None (Some "35") None None None; HGeneral "PA" (Some "+"%char) None (Some "0") None None None; HGeneral "RPR" None None (Some "13") None None None]));
   ("19 FL LEN 12.5 PAR 17 DP 12.5", (true, [HNumber 19; HGeneral "FL" None None None None None None; HGeneral "LEN" None None (Some "12") (Some "."%char) (Some "5") None; HGeneral "PAR" None None (Some "17") None None None; HGeneral "DP" None None (Some "12") (Some "."%char) (Some "5") None]));
   ("20 FSELECT 2", (true, [HNumber 20; HGeneral "FSELECT" None None (Some "2") None None None]));
   ("21 FL LEN 20 IAN+95", (true, [HNumber 21; HGeneral "FL" None None None None None None; HGeneral "LEN" None None (Some "20") None None None; HGeneral "IAN" (Some "+"%char) None (Some "95") None None None]));
   ("22 FL IAN+220 RAN 18", (true, [HNumber 22; HGeneral "FL" None None None None None None; HGeneral "IAN" (Some "+"%char) None (Some "220") None None None; HGeneral "RAN" None None (Some "18") None None None]));
   ("17 FC DR- R10 CCA+0 ICCX+20 ICCY-15 RCCX12 RCCY14", (true, [HNumber 17; HGeneral "FC" None None None None None None; HGeneral "DR" (Some "-"%char) None None None None None; HGeneral "R" None None (Some "10") None None None; HGeneral "CCA" (Some "+"%char) None (Some "0") None None None; HGeneral "ICCX" (Some "+"%char) None (Some "20") None None None; HGeneral "ICCY" (Some "-"%char) None (Some "15") None None None; HGeneral "RCCX" None None (Some "12") None None None; HGeneral "RCCY" None None (Some "14") None None None]));
   ("5 PATTERN DEF", (true, [HNumber 5; HGeneral "PATTERN" None None None None None None; HGeneral "DEF" None None None None None None]));
   ("8 SEL PATTERN ""TAB1""", (true, [HNumber 8; HGeneral "SEL" None None None None None None; HGeneral "PATTERN" None None None None None None; HGeneral """TAB1""" None None None None None None]));
   ("47 L  A+Q120  C+Q122 FMAX", (true, [HNumber 47; HGeneral "L" None None None None None None; HGeneral "A" (Some "+"%char) (Some "Q"%char) (Some "120") None None None; HGeneral "C" (Some "+"%char) (Some "Q"%char) (Some "122") None None None; HGeneral "FMAX" None None None None None None]));
   ("5  PLANE SPATIAL SPA-90 SPB+Q27 SPC+90 TURN F99999 SEQ-", (true, [HNumber 5; HGeneral "PLANE" None None None None None None; HGeneral "SPATIAL" None None None None None None; HGeneral "SPA" (Some "-"%char) None (Some "90") None None None; HGeneral "SPB" (Some "+"%char) (Some "Q"%char) (Some "27") None None None; HGeneral "SPC" (Some "+"%char) None (Some "90") None None None; HGeneral "TURN" None None None None None None; HGeneral "F" None None (Some "99999") None None None; HGeneral "SEQ" (Some "-"%char) None None None None None]));
   ("6  FN 17: SYSWRITE ID 503 NR99 IDX1 =+0", (true, [HNumber 6; HGeneral "FN" None None (Some "17") None None None; HGeneral ":" None None None None None None; HGeneral "SYSWRITE" None None None None None None; HGeneral "ID" None None (Some "503") None None None; HGeneral "NR" None None (Some "99") None None None; HGeneral "IDX" None None (Some "1") None None None; HGeneral "=" (Some "+"%char) None (Some "0") None None None]))].
Proof. repeat (constructor; [vm_compute; reflexivity|]). constructor. Qed.

Example hh_cycles : Forall (fun x => parsed (fst x) = Some (snd x))
  [("6 CYCL DEF 1.0 WIERCENIE GLEB.", (true, [HNumber 6; HCycle "CYCL" "DEF" (Some "1") (Some "."%char) (Some "0"); HGeneral "WIERCENIE" None None None None None None; HGeneral "GLEB." None None None None None None]));
   ("7 CYCL DEF 1.1 ODSTEP 2", (true, [HNumber 7; HCycle "CYCL" "DEF" (Some "1") (Some "."%char) (Some "1"); HGeneral "ODSTEP" None None (Some "2") None None None]));
   ("8 CYCL DEF 1.2 GLEBOKOSC-15", (true, [HNumber 8; HCycle "CYCL" "DEF" (Some "1") (Some "."%char) (Some "2"); HGeneral "GLEBOKOSC" (Some "-"%char) None (Some "15") None None None]));
   ("10 CYCL DEF 1.4 CZAS ZWL. 1", (true, [HNumber 10; HCycle "CYCL" "DEF" (Some "1") (Some "."%char) (Some "4"); HGeneral "CZAS" None None None None None None; HGeneral "ZWL." None None (Some "1") None None None]));
   ("11 CYCL DEF 1.5 F80", (true, [HNumber 11; HCycle "CYCL" "DEF" (Some "1") (Some "."%char) (Some "5"); HGeneral "F" None None (Some "80") None None None]));
   ("14 CYCL DEF 4.2 GLEBOKOSC -10", (true, [HNumber 14; HCycle "CYCL" "DEF" (Some "4") (Some "."%char) (Some "2"); HGeneral "GLEBOKOSC" (Some "-"%char) None (Some "10") None None None]));
   ("15 CYCL DEF 4.3 DOSUW 4 F80", (true, [HNumber 15; HCycle "CYCL" "DEF" (Some "4") (Some "."%char) (Some "3"); HGeneral "DOSUW" None None (Some "4") None None None; HGeneral "F" None None (Some "80") None None None]));
   ("16 CYCL DEF 4.4 X80", (true, [HNumber 16; HCycle "CYCL" "DEF" (Some "4") (Some "."%char) (Some "4"); HGeneral "X" None None (Some "80") None None None]));
   ("18 CYCL DEF 4.6 F100 DR+ PROMIEN 10", (true, [HNumber 18; HCycle "CYCL" "DEF" (Some "4") (Some "."%char) (Some "6"); HGeneral "F" None None (Some "100") None None None; HGeneral "DR" (Some "+"%char) None None None None None; HGeneral "PROMIEN" None None (Some "10") None None None]));
   ("5 CYCL DEF 14.1 ZNACZNIK KONTURU 1/2/3", (true, [HNumber 5; HCycle "CYCL" "DEF" (Some "14") (Some "."%char) (Some "1"); HGeneral "ZNACZNIK" None None None None None None; HGeneral "KONTURU" None None (Some "1") None None None; HGeneral "/" None None (Some "2") None None None; HGeneral "/" None None (Some "3") None None None]));
   ("7 CYCL DEF 30.0 ODPRACOWANIE DANYCH 3D", (true, [HNumber 7; HCycle "CYCL" "DEF" (Some "30") (Some "."%char) (Some "0"); HGeneral "ODPRACOWANIE" None None None None None None; HGeneral "DANYCH" None None (Some "3") None None None; HGeneral "D" None None None None None None]));
   ("8 CYCL DEF 30.1 PGMDIGIT.: DATNEGA", (true, [HNumber 8; HCycle "CYCL" "DEF" (Some "30") (Some "."%char) (Some "1"); HGeneral "PGMDIGIT.:" None None None None None None; HGeneral "DATNEGA" None None None None None None]));
   ("9 CYCL DEF 30.2 X+0 Y+0 Z-35", (true, [HNumber 9; HCycle "CYCL" "DEF" (Some "30") (Some "."%char) (Some "2"); HGeneral "X" (Some "+"%char) None (Some "0") None None None; HGeneral "Y" (Some "+"%char) None (Some "0") None None None; HGeneral "Z" (Some "-"%char) None (Some "35") None None None]));
   ("20 CYCL DEF 8.1 Y", (true, [HNumber 20; HCycle "CYCL" "DEF" (Some "8") (Some "."%char) (Some "1"); HGeneral "Y" None None None None None None]));
   ("8 CYCL DEF 19.1 B+10 C+90 F1000 ABST 50", (true, [HNumber 8; HCycle "CYCL" "DEF" (Some "19") (Some "."%char) (Some "1"); HGeneral "B" (Some "+"%char) None (Some "10") None None None; HGeneral "C" (Some "+"%char) None (Some "90") None None None; HGeneral "F" None None (Some "1000") None None None; HGeneral "ABST" None None (Some "50") None None None]));
   ("16 CYCL DEF 11.1 SCL 0.75", (true, [HNumber 16; HCycle "CYCL" "DEF" (Some "11") (Some "."%char) (Some "1"); HGeneral "SCL" None None (Some "0") (Some "."%char) (Some "75") None]));
   ("27 CYCL DEF 26.1 X 1.4 Y 0.6 CCX+15 CCY+20", (true, [HNumber 27; HCycle "CYCL" "DEF" (Some "26") (Some "."%char) (Some "1"); HGeneral "X" None None (Some "1") (Some "."%char) (Some "4") None; HGeneral "Y" None None (Some "0") (Some "."%char) (Some "6") None; HGeneral "CCX" (Some "+"%char) None (Some "15") None None None; HGeneral "CCY" (Some "+"%char) None (Some "20") None None None]));
   ("49 CYCL DEF 9.1 CZAS ZWL.0.5", (true, [HNumber 49; HCycle "CYCL" "DEF" (Some "9") (Some "."%char) (Some "1"); HGeneral "CZAS" None None None None None None; HGeneral "ZWL." None None (Some "0") (Some "."%char) (Some "5") None]));
   ("7 CYCL DEF 12.0 PGM CALL", (true, [HNumber 7; HCycle "CYCL" "DEF" (Some "12") (Some "."%char) (Some "0"); HGeneral "PGM" None None None None None None; HGeneral "CALL" None None None None None None]));
   ("8 CYCL DEF 12.1 LOT31", (true, [HNumber 8; HCycle "CYCL" "DEF" (Some "12") (Some "."%char) (Some "1"); HGeneral "LOT" None None (Some "31") None None None]));
   ("9 CYCL CALL", (true, [HNumber 9; HCycle "CYCL" "CALL" None None None]));
   ("9 CYCL DEF 10.1 ROT+Q150", (true, [HNumber 9; HCycle "CYCL" "DEF" (Some "10") (Some "."%char) (Some "1"); HGeneral "ROT" (Some "+"%char) (Some "Q"%char) (Some "150") None None None]));
   ("7  CYCL DEF 7.1 #2", (true, [HNumber 7; HCycle "CYCL" "DEF" (Some "7") (Some "."%char) (Some "1"); HGeneral "#" None None (Some "2") None None None]))].
Proof. repeat (constructor; [vm_compute; reflexivity|]). constructor. Qed.

Example hh_cycles2 : Forall (fun x => parsed (fst x) = Some (snd x))
  [("11 CYCL DEF 201 ROZWIERCANIE ~", (true, [HNumber 11; HCycle "CYCL" "DEF" (Some "201") None None; HGeneral "ROZWIERCANIE" None None None None None (Some "~"%char)]));
   ("	Q200 = 2   ;ODSTEP BEZPIECZ. ~", (true, [HParam "Q" 200 "="%char None "2" None None; HComment ";"%char "ODSTEP BEZPIECZ. " "~"%char]));
   ("	Q201 = -15 ;GLEBOKOSC", (true, [HParam "Q" 201 "="%char (Some "-"%char) "15" None None; HComment ";"%char "GLEBOKOSC" zero]));
   ("	Q206 = 100 ;F DOSUW WGL.", (true, [HParam "Q" 206 "="%char None "100" None None; HComment ";"%char "F DOSUW WGL." zero]));
   ("	Q211 = 0.5 ;CZAS ZWL. NA DOLE", (true, [HParam "Q" 211 "="%char None "0" (Some "."%char) (Some "5"); HComment ";"%char "CZAS ZWL. NA DOLE" zero]));
   ("	Q203 = +0  ;WSPL.POWIERZ.", (true, [HParam "Q" 203 "="%char (Some "+"%char) "0" None None; HComment ";"%char "WSPL.POWIERZ." zero]));
   ("	Q204 = 100 ;2. ODST.BEZP.", (true, [HParam "Q" 204 "="%char None "100" None None; HComment ";"%char "2. ODST.BEZP." zero]));
   ("8  CYCL DEF 220 POLAR PATTERN ~", (true, [HNumber 8; HCycle "CYCL" "DEF" (Some "220") None None; HGeneral "POLAR" None None None None None None; HGeneral "PATTERN" None None None None None (Some "~"%char)]))].
Proof. repeat (constructor; [vm_compute; reflexivity|]). constructor. Qed.

(** parser_net_test/HeidenhainAllAttributesParserTests.cs 121-130: the verdicts and
    whether there is a message. *)
Definition verdict (data : string) : option (bool * bool) :=
  match hh_parse number false (Some false) data "" with
  | Ok (_, (ok, _, m)) => Some (ok, String.eqb m "")
  | Exc _ => None
  end.

Example hh_net : verdict "25 DEP LCT X+10 Y+12 R8 F100 M2" = Some (true, true) /\
  verdict "BEGINPGM hei530_origins MM" = Some (false, false).
Proof. split; vm_compute; reflexivity. Qed.
