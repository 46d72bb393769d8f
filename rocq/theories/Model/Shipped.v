(** The word tables the project ships: conf/*/grammar.json, as
    parser/WordGrammarReader.cpp reads them.  Written out from those files by a
    script; a test of the hypotheses of the theorems, not part of the code. *)
From Verif Require Import Model.Base Model.Attr.

Definition ww (w : string) (f t df dt : Z) (u : bool) (ty : word_type) : string * word_grammar := (w, mkWG w f t df dt u ty).

(** conf/fanuc_lathe_system_a/grammar.json, "metric". *)
Definition fanuc_lathe_system_a_metric : word_map := [
  ww ",C" (-9999) 9999 0 999 false WTmisc;
  ww ",R" (-9999) 9999 0 999 false WTmisc;
  ww ":" (0) 9999 0 0 false WTnumbering;
  ww "#" (0) 99999 0 0 false WTmacro;
  ww "=" (-99999) 99999 0 9999 false WTcalc;
  ww "+" (-99999) 99999 0 9999 false WTcalc;
  ww "-" (-99999) 99999 0 9999 false WTcalc;
  ww "*" (-99999) 99999 0 9999 false WTcalc;
  ww "/" (-9999) 9999 0 9999 false WTcalc;
  ww "A" (-99999) 99999 0 9999 true WTangle;
  ww "A2" (-99999) 99999 0 9999 true WTassignable;
  ww "B" (-99999) 99999 0 9999 true WTangle;
  ww "B2" (-99999) 99999 0 9999 true WTassignable;
  ww "C" (-99999) 99999 0 9999 true WTangle;
  ww "C2" (-99999) 99999 0 9999 true WTassignable;
  ww "D" (-999) 999 0 999 false WTmisc;
  ww "F" (0) 99999 0 99999 false WTfeed;
  ww "G" (0) 999 0 9 false WTcode;
  ww "H" (-999) 999 0 999 false WTmisc;
  ww "I" (-99999) 99999 0 9999 true WTlength;
  ww "J" (-99999) 99999 0 9999 true WTlength;
  ww "K" (-99999) 99999 0 9999 true WTlength;
  ww "L" (-9999) 9999 0 0 false WTmisc;
  ww "M" (0) 999 0 0 false WTcode;
  ww "N" (1) 99999 0 0 false WTnumbering;
  ww "P" (0) 99999 0 999 false WTmisc;
  ww "Q" (-9999) 9999 0 999 false WTmisc;
  ww "R" (-99999) 99999 0 9999 true WTlength;
  ww "S" (1) 99999 0 0 false WTmisc;
  ww "S1" (0) 99999 0 0 false WTassignable;
  ww "S2" (0) 99999 0 0 false WTassignable;
  ww "S3" (0) 99999 0 0 false WTassignable;
  ww "T" (0) 9999 0 0 false WTmisc;
  ww "X" (-99999) 99999 0 9999 true WTlength;
  ww "Y" (-99999) 99999 0 9999 true WTlength;
  ww "Z" (-99999) 99999 0 9999 true WTlength;
  ww "U" (-99999) 99999 0 9999 true WTlength;
  ww "V" (-99999) 99999 0 9999 true WTlength;
  ww "W" (-99999) 99999 0 9999 true WTlength;
  ww "GOTO" (1) 99999 0 0 false WTmisc].

(** conf/fanuc_lathe_system_a/grammar.json, "imperial". *)
Definition fanuc_lathe_system_a_imperial : word_map := [
  ww ",C" (-999) 999 0 9999 false WTmisc;
  ww ",R" (-999) 999 0 9999 false WTmisc;
  ww ":" (0) 9999 0 0 false WTnumbering;
  ww "#" (0) 99999 0 0 false WTmacro;
  ww "=" (-9999) 9999 0 9999 false WTcalc;
  ww "+" (-9999) 9999 0 9999 false WTcalc;
  ww "-" (-9999) 9999 0 9999 false WTcalc;
  ww "*" (-9999) 9999 0 9999 false WTcalc;
  ww "/" (-9999) 9999 0 9999 false WTcalc;
  ww "A" (-9999) 9999 0 9999 true WTangle;
  ww "A2" (-9999) 9999 0 9999 true WTassignable;
  ww "B" (-9999) 9999 0 9999 true WTangle;
  ww "B2" (-9999) 9999 0 9999 true WTassignable;
  ww "C" (-9999) 9999 0 9999 true WTangle;
  ww "C2" (-9999) 9999 0 9999 true WTassignable;
  ww "D" (-999) 999 0 999 false WTmisc;
  ww "F" (0) 9999 0 9999 false WTfeed;
  ww "G" (0) 999 0 9 false WTcode;
  ww "H" (-999) 999 0 999 false WTmisc;
  ww "I" (-9999) 9999 0 9999 true WTlength;
  ww "J" (-9999) 9999 0 9999 true WTlength;
  ww "K" (-9999) 9999 0 9999 true WTlength;
  ww "L" (-9999) 9999 0 0 false WTmisc;
  ww "M" (0) 999 0 0 false WTcode;
  ww "N" (1) 99999 0 0 false WTnumbering;
  ww "P" (0) 99999 0 999 false WTmisc;
  ww "Q" (-999) 999 0 9999 false WTmisc;
  ww "R" (-9999) 9999 0 9999 true WTlength;
  ww "S" (1) 99999 0 0 false WTmisc;
  ww "S1" (0) 99999 0 0 false WTassignable;
  ww "S2" (0) 99999 0 0 false WTassignable;
  ww "S3" (0) 99999 0 0 false WTassignable;
  ww "T" (0) 9999 0 9999 false WTmisc;
  ww "X" (-9999) 9999 0 9999 true WTlength;
  ww "Y" (-9999) 9999 0 9999 true WTlength;
  ww "Z" (-9999) 9999 0 9999 true WTlength;
  ww "U" (-9999) 9999 0 9999 true WTlength;
  ww "V" (-9999) 9999 0 9999 true WTlength;
  ww "W" (-9999) 9999 0 9999 true WTlength;
  ww "GOTO" (1) 99999 0 0 false WTmisc].

(** conf/fanuc_mill/grammar.json, "metric". *)
Definition fanuc_mill_metric : word_map := [
  ww ",C" (-9999) 9999 0 9999 false WTmisc;
  ww ",R" (-9999) 9999 0 9999 false WTmisc;
  ww ":" (0) 9999 0 0 false WTnumbering;
  ww "#" (0) 99999 0 0 false WTmacro;
  ww "=" (-99999) 99999 0 9999 false WTcalc;
  ww "+" (-99999) 99999 0 9999 false WTcalc;
  ww "-" (-99999) 99999 0 9999 false WTcalc;
  ww "*" (-99999) 99999 0 9999 false WTcalc;
  ww "/" (-9999) 9999 0 9999 false WTcalc;
  ww "A" (-99999) 99999 0 9999 true WTangle;
  ww "A2" (-99999) 99999 0 9999 true WTassignable;
  ww "B" (-99999) 99999 0 9999 true WTangle;
  ww "B2" (-99999) 99999 0 9999 true WTassignable;
  ww "C" (-99999) 99999 0 9999 true WTangle;
  ww "C2" (-99999) 99999 0 9999 true WTassignable;
  ww "D" (-999) 999 0 999 false WTmisc;
  ww "F" (0) 99999 0 99999 false WTfeed;
  ww "G" (0) 999 0 9 false WTcode;
  ww "H" (-999) 999 0 999 false WTmisc;
  ww "I" (-99999) 99999 0 99999999 true WTlength;
  ww "J" (-99999) 99999 0 99999999 true WTlength;
  ww "K" (-99999) 99999 0 99999999 true WTlength;
  ww "L" (-9999) 9999 0 0 false WTmisc;
  ww "M" (0) 999 0 0 false WTcode;
  ww "N" (1) 99999 0 0 false WTnumbering;
  ww "P" (0) 99999 0 999 false WTmisc;
  ww "Q" (-9999) 9999 0 999 false WTmisc;
  ww "R" (-99999) 99999 0 9999 true WTlength;
  ww "S" (1) 99999 0 0 false WTmisc;
  ww "S1" (0) 99999 0 0 false WTassignable;
  ww "S2" (0) 99999 0 0 false WTassignable;
  ww "S3" (0) 99999 0 0 false WTassignable;
  ww "T" (0) 9999 0 0 false WTmisc;
  ww "X" (-99999) 99999 0 9999 true WTlength;
  ww "Y" (-99999) 99999 0 9999 true WTlength;
  ww "Z" (-99999) 99999 0 9999 true WTlength;
  ww "U" (-99999) 99999 0 9999 true WTlength;
  ww "V" (-99999) 99999 0 9999 true WTlength;
  ww "W" (-99999) 99999 0 9999 true WTlength;
  ww "GOTO" (1) 99999 0 0 false WTmisc].

(** conf/fanuc_mill/grammar.json, "imperial". *)
Definition fanuc_mill_imperial : word_map := [
  ww ",C" (-999) 999 0 9999 false WTmisc;
  ww ",R" (-999) 999 0 9999 false WTmisc;
  ww ":" (0) 9999 0 0 false WTnumbering;
  ww "#" (0) 99999 0 0 false WTmacro;
  ww "=" (-9999) 9999 0 9999 false WTcalc;
  ww "+" (-9999) 9999 0 9999 false WTcalc;
  ww "-" (-9999) 9999 0 9999 false WTcalc;
  ww "*" (-9999) 9999 0 9999 false WTcalc;
  ww "/" (-9999) 9999 0 9999 false WTcalc;
  ww "A" (-9999) 9999 0 9999 true WTangle;
  ww "A2" (-9999) 9999 0 9999 true WTassignable;
  ww "B" (-9999) 9999 0 9999 true WTangle;
  ww "B2" (-9999) 9999 0 9999 true WTassignable;
  ww "C" (-9999) 9999 0 9999 true WTangle;
  ww "C2" (-9999) 9999 0 9999 true WTassignable;
  ww "D" (-999) 999 0 999 false WTmisc;
  ww "F" (0) 9999 0 9999 false WTfeed;
  ww "G" (0) 999 0 9 false WTcode;
  ww "H" (-999) 999 0 999 false WTmisc;
  ww "I" (-9999) 9999 0 9999 true WTlength;
  ww "J" (-9999) 9999 0 9999 true WTlength;
  ww "K" (-9999) 9999 0 9999 true WTlength;
  ww "L" (-9999) 9999 0 0 false WTmisc;
  ww "M" (0) 999 0 0 false WTcode;
  ww "N" (1) 99999 0 0 false WTnumbering;
  ww "P" (0) 99999 0 999 false WTmisc;
  ww "Q" (-999) 999 0 9999 false WTmisc;
  ww "R" (-9999) 9999 0 9999 true WTlength;
  ww "S" (1) 99999 0 0 false WTmisc;
  ww "S1" (0) 99999 0 0 false WTassignable;
  ww "S2" (0) 99999 0 0 false WTassignable;
  ww "S3" (0) 99999 0 0 false WTassignable;
  ww "T" (0) 9999 0 0 false WTmisc;
  ww "X" (-9999) 9999 0 9999 true WTlength;
  ww "Y" (-9999) 9999 0 9999 true WTlength;
  ww "Z" (-9999) 9999 0 9999 true WTlength;
  ww "U" (-9999) 9999 0 9999 true WTlength;
  ww "V" (-9999) 9999 0 9999 true WTlength;
  ww "W" (-9999) 9999 0 9999 true WTlength;
  ww "GOTO" (1) 99999 0 0 false WTmisc].

(** conf/generic_lathe/grammar.json, "metric". *)
Definition generic_lathe_metric : word_map := [
  ww ",C" (-9999) 9999 0 999 false WTmisc;
  ww ",R" (-9999) 9999 0 999 false WTmisc;
  ww ":" (0) 9999 0 0 false WTnumbering;
  ww "#" (0) 99999 0 0 false WTmacro;
  ww "=" (-99999) 99999 0 9999 false WTcalc;
  ww "+" (-99999) 99999 0 9999 false WTcalc;
  ww "-" (-99999) 99999 0 9999 false WTcalc;
  ww "*" (-99999) 99999 0 9999 false WTcalc;
  ww "/" (-9999) 9999 0 9999 false WTcalc;
  ww "A" (-99999) 99999 0 9999 true WTangle;
  ww "A2" (-99999) 99999 0 9999 true WTassignable;
  ww "B" (-99999) 99999 0 9999 true WTangle;
  ww "B2" (-99999) 99999 0 9999 true WTassignable;
  ww "C" (-99999) 99999 0 9999 true WTangle;
  ww "C2" (-99999) 99999 0 9999 true WTassignable;
  ww "D" (-999) 999 0 999 false WTmisc;
  ww "F" (0) 99999 0 99999 false WTfeed;
  ww "G" (0) 999 0 9 false WTcode;
  ww "H" (-999) 999 0 999 false WTmisc;
  ww "I" (-99999) 99999 0 9999 true WTlength;
  ww "J" (-99999) 99999 0 9999 true WTlength;
  ww "K" (-99999) 99999 0 9999 true WTlength;
  ww "L" (-9999) 9999 0 0 false WTmisc;
  ww "M" (0) 999 0 0 false WTcode;
  ww "N" (1) 99999 0 0 false WTnumbering;
  ww "P" (0) 99999 0 999 false WTmisc;
  ww "Q" (-9999) 9999 0 999 false WTmisc;
  ww "R" (-99999) 99999 0 9999 true WTlength;
  ww "S" (1) 99999 0 0 false WTmisc;
  ww "S1" (0) 99999 0 0 false WTassignable;
  ww "S2" (0) 99999 0 0 false WTassignable;
  ww "S3" (0) 99999 0 0 false WTassignable;
  ww "T" (0) 9999 0 9999 false WTmisc;
  ww "X" (-99999) 99999 0 9999 true WTlength;
  ww "Y" (-99999) 99999 0 9999 true WTlength;
  ww "Z" (-99999) 99999 0 9999 true WTlength;
  ww "U" (-99999) 99999 0 9999 true WTlength;
  ww "V" (-99999) 99999 0 9999 true WTlength;
  ww "W" (-99999) 99999 0 9999 true WTlength;
  ww "GOTO" (1) 99999 0 0 false WTmisc].

(** conf/generic_lathe/grammar.json, "imperial". *)
Definition generic_lathe_imperial : word_map := [
  ww ",C" (-999) 999 0 9999 false WTmisc;
  ww ",R" (-999) 999 0 9999 false WTmisc;
  ww ":" (0) 9999 0 0 false WTnumbering;
  ww "#" (0) 99999 0 0 false WTmacro;
  ww "=" (-9999) 9999 0 9999 false WTcalc;
  ww "+" (-9999) 9999 0 9999 false WTcalc;
  ww "-" (-9999) 9999 0 9999 false WTcalc;
  ww "*" (-9999) 9999 0 9999 false WTcalc;
  ww "/" (-9999) 9999 0 9999 false WTcalc;
  ww "A" (-9999) 9999 0 9999 true WTangle;
  ww "A2" (-9999) 9999 0 9999 true WTassignable;
  ww "B" (-9999) 9999 0 9999 true WTangle;
  ww "B2" (-9999) 9999 0 9999 true WTassignable;
  ww "C" (-9999) 9999 0 9999 true WTangle;
  ww "C2" (-9999) 9999 0 9999 true WTassignable;
  ww "D" (-9999) 9999 0 999 false WTmisc;
  ww "F" (0) 9999 0 9999 false WTfeed;
  ww "G" (0) 999 0 9 false WTcode;
  ww "H" (-9999) 9999 0 9999 false WTmisc;
  ww "I" (-9999) 9999 0 9999 true WTlength;
  ww "J" (-9999) 9999 0 9999 true WTlength;
  ww "K" (-9999) 9999 0 9999 true WTlength;
  ww "L" (-9999) 9999 0 0 false WTmisc;
  ww "M" (0) 999 0 0 false WTcode;
  ww "N" (1) 99999 0 0 false WTnumbering;
  ww "P" (0) 99999 0 999 false WTmisc;
  ww "Q" (-999) 999 0 9999 false WTmisc;
  ww "R" (-9999) 9999 0 9999 true WTlength;
  ww "S" (1) 99999 0 0 false WTmisc;
  ww "S1" (0) 99999 0 0 false WTassignable;
  ww "S2" (0) 99999 0 0 false WTassignable;
  ww "S3" (0) 99999 0 0 false WTassignable;
  ww "T" (0) 9999 0 9999 false WTmisc;
  ww "X" (-9999) 9999 0 9999 true WTlength;
  ww "Y" (-9999) 9999 0 9999 true WTlength;
  ww "Z" (-9999) 9999 0 9999 true WTlength;
  ww "U" (-9999) 9999 0 9999 true WTlength;
  ww "V" (-9999) 9999 0 9999 true WTlength;
  ww "W" (-9999) 9999 0 9999 true WTlength;
  ww "GOTO" (1) 99999 0 0 false WTmisc].

(** conf/generic_mill/grammar.json, "metric". *)
Definition generic_mill_metric : word_map := [
  ww ",C" (-9999) 9999 0 999 false WTmisc;
  ww ",R" (-9999) 9999 0 999 false WTmisc;
  ww ":" (0) 9999 0 0 false WTnumbering;
  ww "#" (0) 9999 0 0 false WTmacro;
  ww "=" (-99999) 99999 0 9999 false WTcalc;
  ww "+" (-99999) 99999 0 9999 false WTcalc;
  ww "-" (-99999) 99999 0 9999 false WTcalc;
  ww "*" (-99999) 99999 0 9999 false WTcalc;
  ww "/" (-9999) 9999 0 9999 false WTcalc;
  ww "A" (-99999) 99999 0 9999 true WTangle;
  ww "A2" (-99999) 99999 0 9999 true WTassignable;
  ww "B" (-99999) 99999 0 9999 true WTangle;
  ww "B2" (-99999) 99999 0 9999 true WTassignable;
  ww "C" (-99999) 99999 0 9999 true WTangle;
  ww "C2" (-99999) 99999 0 9999 true WTassignable;
  ww "D" (-999) 999 0 999 false WTmisc;
  ww "F" (0) 99999 0 99999 false WTfeed;
  ww "G" (0) 999 0 9 false WTcode;
  ww "H" (-999) 999 0 999 false WTmisc;
  ww "I" (-99999) 99999 0 9999 true WTlength;
  ww "J" (-99999) 99999 0 9999 true WTlength;
  ww "K" (-99999) 99999 0 9999 true WTlength;
  ww "L" (-9999) 9999 0 0 false WTmisc;
  ww "M" (0) 999 0 0 false WTcode;
  ww "N" (1) 99999 0 0 false WTnumbering;
  ww "P" (0) 99999 0 999 false WTmisc;
  ww "Q" (-9999) 9999 0 999 false WTmisc;
  ww "R" (-99999) 99999 0 9999 true WTlength;
  ww "S" (1) 99999 0 0 false WTmisc;
  ww "S1" (0) 99999 0 0 false WTassignable;
  ww "S2" (0) 99999 0 0 false WTassignable;
  ww "S3" (0) 99999 0 0 false WTassignable;
  ww "T" (0) 9999 0 0 false WTmisc;
  ww "X" (-99999) 99999 0 9999 true WTlength;
  ww "Y" (-99999) 99999 0 9999 true WTlength;
  ww "Z" (-99999) 99999 0 9999 true WTlength;
  ww "U" (-99999) 99999 0 9999 true WTlength;
  ww "V" (-99999) 99999 0 9999 true WTlength;
  ww "W" (-99999) 99999 0 9999 true WTlength;
  ww "GOTO" (1) 99999 0 0 false WTmisc].

(** conf/generic_mill/grammar.json, "imperial". *)
Definition generic_mill_imperial : word_map := [
  ww ",C" (-999) 999 0 9999 false WTmisc;
  ww ",R" (-999) 999 0 9999 false WTmisc;
  ww ":" (0) 9999 0 0 false WTnumbering;
  ww "#" (0) 99999 0 0 false WTmacro;
  ww "=" (-9999) 9999 0 9999 false WTcalc;
  ww "+" (-9999) 9999 0 9999 false WTcalc;
  ww "-" (-9999) 9999 0 9999 false WTcalc;
  ww "*" (-9999) 9999 0 9999 false WTcalc;
  ww "/" (-9999) 9999 0 9999 false WTcalc;
  ww "A" (-9999) 9999 0 9999 true WTangle;
  ww "A2" (-9999) 9999 0 9999 true WTassignable;
  ww "B" (-9999) 9999 0 9999 true WTangle;
  ww "B2" (-9999) 9999 0 9999 true WTassignable;
  ww "C" (-9999) 9999 0 9999 true WTangle;
  ww "C2" (-9999) 9999 0 9999 true WTassignable;
  ww "D" (-9999) 9999 0 999 false WTmisc;
  ww "F" (0) 9999 0 9999 false WTfeed;
  ww "G" (0) 999 0 9 false WTcode;
  ww "H" (-9999) 9999 0 9999 false WTmisc;
  ww "I" (-9999) 9999 0 9999 true WTlength;
  ww "J" (-9999) 9999 0 9999 true WTlength;
  ww "K" (-9999) 9999 0 9999 true WTlength;
  ww "L" (-9999) 9999 0 0 false WTmisc;
  ww "M" (0) 999 0 0 false WTcode;
  ww "N" (1) 99999 0 0 false WTnumbering;
  ww "P" (0) 99999 0 999 false WTmisc;
  ww "Q" (-999) 999 0 9999 false WTmisc;
  ww "R" (-9999) 9999 0 9999 true WTlength;
  ww "S" (1) 99999 0 0 false WTmisc;
  ww "S1" (0) 99999 0 0 false WTassignable;
  ww "S2" (0) 99999 0 0 false WTassignable;
  ww "S3" (0) 99999 0 0 false WTassignable;
  ww "T" (0) 9999 0 0 false WTmisc;
  ww "X" (-9999) 9999 0 9999 true WTlength;
  ww "Y" (-9999) 9999 0 9999 true WTlength;
  ww "Z" (-9999) 9999 0 9999 true WTlength;
  ww "U" (-9999) 9999 0 9999 true WTlength;
  ww "V" (-9999) 9999 0 9999 true WTlength;
  ww "W" (-9999) 9999 0 9999 true WTlength;
  ww "GOTO" (1) 99999 0 0 false WTmisc].

(** conf/haas_lathe/grammar.json, "metric". *)
Definition haas_lathe_metric : word_map := [
  ww ",C" (-9999) 9999 0 999 false WTmisc;
  ww ",R" (-9999) 9999 0 999 false WTmisc;
  ww ":" (0) 9999 0 0 false WTnumbering;
  ww "#" (0) 99999 0 0 false WTmacro;
  ww "=" (-99999) 99999 0 9999 false WTcalc;
  ww "+" (-99999) 99999 0 9999 false WTcalc;
  ww "-" (-99999) 99999 0 9999 false WTcalc;
  ww "*" (-99999) 99999 0 9999 false WTcalc;
  ww "/" (-9999) 9999 0 9999 false WTcalc;
  ww "A" (-99999) 99999 0 9999 true WTangle;
  ww "A2" (-99999) 99999 0 9999 true WTassignable;
  ww "B" (-99999) 99999 0 9999 true WTangle;
  ww "B2" (-99999) 99999 0 9999 true WTassignable;
  ww "C" (-99999) 99999 0 9999 true WTangle;
  ww "C2" (-99999) 99999 0 9999 true WTassignable;
  ww "D" (-9999) 9999 0 999 false WTmisc;
  ww "F" (0) 99999 0 99999 false WTfeed;
  ww "G" (0) 999 0 9 false WTcode;
  ww "H" (-9999) 9999 0 999 false WTmisc;
  ww "I" (-99999) 99999 0 9999 true WTlength;
  ww "J" (-99999) 99999 0 9999 true WTlength;
  ww "K" (-99999) 99999 0 9999 true WTlength;
  ww "L" (-9999) 9999 0 0 false WTmisc;
  ww "M" (0) 999 0 0 false WTcode;
  ww "N" (1) 99999 0 0 false WTnumbering;
  ww "P" (0) 99999 0 999 false WTmisc;
  ww "Q" (-9999) 9999 0 999 false WTmisc;
  ww "R" (-99999) 99999 0 9999 true WTlength;
  ww "S" (1) 99999 0 0 false WTmisc;
  ww "S1" (0) 99999 0 0 false WTassignable;
  ww "S2" (0) 99999 0 0 false WTassignable;
  ww "S3" (0) 99999 0 0 false WTassignable;
  ww "T" (0) 9999 0 0 false WTmisc;
  ww "X" (-99999) 99999 0 9999 true WTlength;
  ww "Y" (-99999) 99999 0 9999 true WTlength;
  ww "Z" (-99999) 99999 0 9999 true WTlength;
  ww "U" (-99999) 99999 0 9999 true WTlength;
  ww "V" (-99999) 99999 0 9999 true WTlength;
  ww "W" (-99999) 99999 0 9999 true WTlength;
  ww "GOTO" (1) 99999 0 0 false WTmisc].

(** conf/haas_lathe/grammar.json, "imperial". *)
Definition haas_lathe_imperial : word_map := [
  ww ",C" (-999) 999 0 9999 false WTmisc;
  ww ",R" (-999) 999 0 9999 false WTmisc;
  ww ":" (0) 9999 0 0 false WTnumbering;
  ww "#" (0) 99999 0 0 false WTmacro;
  ww "=" (-9999) 9999 0 9999 false WTcalc;
  ww "+" (-9999) 9999 0 9999 false WTcalc;
  ww "-" (-9999) 9999 0 9999 false WTcalc;
  ww "*" (-9999) 9999 0 9999 false WTcalc;
  ww "/" (-9999) 9999 0 9999 false WTcalc;
  ww "A" (-9999) 9999 0 9999 true WTangle;
  ww "A2" (-9999) 9999 0 9999 true WTassignable;
  ww "B" (-9999) 9999 0 9999 true WTangle;
  ww "B2" (-9999) 9999 0 9999 true WTassignable;
  ww "C" (-9999) 9999 0 9999 true WTangle;
  ww "C2" (-9999) 9999 0 9999 true WTassignable;
  ww "D" (-999) 999 0 9999 false WTmisc;
  ww "F" (0) 9999 0 9999 false WTfeed;
  ww "G" (0) 999 0 9 false WTcode;
  ww "H" (-999) 999 0 9999 false WTmisc;
  ww "I" (-9999) 9999 0 9999 true WTlength;
  ww "J" (-9999) 9999 0 9999 true WTlength;
  ww "K" (-9999) 9999 0 9999 true WTlength;
  ww "L" (-9999) 9999 0 0 false WTmisc;
  ww "M" (0) 999 0 0 false WTcode;
  ww "N" (1) 99999 0 0 false WTnumbering;
  ww "P" (0) 99999 0 999 false WTmisc;
  ww "Q" (-999) 999 0 9999 false WTmisc;
  ww "R" (-9999) 9999 0 9999 true WTlength;
  ww "S" (1) 99999 0 0 false WTmisc;
  ww "S1" (0) 99999 0 0 false WTassignable;
  ww "S2" (0) 99999 0 0 false WTassignable;
  ww "S3" (0) 99999 0 0 false WTassignable;
  ww "T" (0) 9999 0 0 false WTmisc;
  ww "X" (-9999) 9999 0 9999 true WTlength;
  ww "Y" (-9999) 9999 0 9999 true WTlength;
  ww "Z" (-9999) 9999 0 9999 true WTlength;
  ww "U" (-9999) 9999 0 9999 true WTlength;
  ww "V" (-9999) 9999 0 9999 true WTlength;
  ww "W" (-9999) 9999 0 9999 true WTlength;
  ww "GOTO" (1) 99999 0 0 false WTmisc].

(** conf/makino_mill/grammar.json, "metric". *)
Definition makino_mill_metric : word_map := [
  ww ",C" (-9999) 9999 0 999 false WTmisc;
  ww ",R" (-9999) 9999 0 999 false WTmisc;
  ww ":" (0) 9999 0 0 false WTnumbering;
  ww "#" (0) 99999 0 0 false WTmacro;
  ww "=" (-99999) 99999 0 9999 false WTcalc;
  ww "+" (-99999) 99999 0 9999 false WTcalc;
  ww "-" (-99999) 99999 0 9999 false WTcalc;
  ww "*" (-99999) 99999 0 9999 false WTcalc;
  ww "/" (-9999) 9999 0 9999 false WTcalc;
  ww "A" (-99999) 99999 0 9999 true WTangle;
  ww "A2" (-99999) 99999 0 9999 true WTassignable;
  ww "B" (-99999) 99999 0 9999 true WTangle;
  ww "B2" (-99999) 99999 0 9999 true WTassignable;
  ww "C" (-99999) 99999 0 9999 true WTangle;
  ww "C2" (-99999) 99999 0 9999 true WTassignable;
  ww "D" (-999) 999 0 999 false WTmisc;
  ww "F" (0) 99999 0 99999 false WTfeed;
  ww "G" (0) 999 0 9 false WTcode;
  ww "H" (-999) 999 0 999 false WTmisc;
  ww "I" (-99999) 99999 0 9999 true WTlength;
  ww "J" (-99999) 99999 0 9999 true WTlength;
  ww "K" (-99999) 99999 0 9999 true WTlength;
  ww "L" (-9999) 9999 0 0 false WTmisc;
  ww "M" (0) 999 0 0 false WTcode;
  ww "N" (1) 99999 0 0 false WTnumbering;
  ww "P" (0) 99999 0 999 false WTmisc;
  ww "Q" (-9999) 9999 0 999 false WTmisc;
  ww "R" (-99999) 99999 0 999 true WTlength;
  ww "S" (1) 99999 0 0 false WTmisc;
  ww "S1" (0) 99999 0 0 false WTassignable;
  ww "S2" (0) 99999 0 0 false WTassignable;
  ww "S3" (0) 99999 0 0 false WTassignable;
  ww "T" (0) 9999 0 0 false WTmisc;
  ww "X" (-99999) 99999 0 9999 true WTlength;
  ww "Y" (-99999) 99999 0 9999 true WTlength;
  ww "Z" (-99999) 99999 0 9999 true WTlength;
  ww "U" (-99999) 99999 0 9999 true WTlength;
  ww "V" (-99999) 99999 0 9999 true WTlength;
  ww "W" (-99999) 99999 0 9999 true WTlength;
  ww "GOTO" (1) 99999 0 0 false WTmisc].

(** conf/*/grammar.json, "operations": the same in every file. *)
Definition shipped_ops : list string := ["SIN"; "COS"; "TAN"; "ATAN"; "SQRT"; "ABS"; "ROUND"; "FIX"; "FUP"; "OR"; "XOR"; "AND"; "BIN"; "BCD"; "OR"; "XOR"; "AND"; "IF"; "WHILE"; "DO"; "END"; "EQ"; "NE"; "GT"; "GE"; "LT"; "LE"].

(** One entry for every directory of conf. *)
Definition shipped : list (string * fanuc_grammar) := [
  ("fanuc_lathe_system_a", mkFG fanuc_lathe_system_a_metric fanuc_lathe_system_a_imperial);
  ("fanuc_lathe_system_b", mkFG fanuc_lathe_system_a_metric fanuc_lathe_system_a_imperial);
  ("fanuc_lathe_system_c", mkFG fanuc_lathe_system_a_metric fanuc_lathe_system_a_imperial);
  ("fanuc_mill", mkFG fanuc_mill_metric fanuc_mill_imperial);
  ("fanuc_millturn_system_a", mkFG fanuc_lathe_system_a_metric fanuc_lathe_system_a_imperial);
  ("fanuc_millturn_system_b", mkFG fanuc_lathe_system_a_metric fanuc_lathe_system_a_imperial);
  ("generic_lathe", mkFG generic_lathe_metric generic_lathe_imperial);
  ("generic_mill", mkFG generic_mill_metric generic_mill_imperial);
  ("haas_lathe", mkFG haas_lathe_metric haas_lathe_imperial);
  ("haas_mill", mkFG fanuc_lathe_system_a_metric generic_mill_imperial);
  ("makino_mill", mkFG makino_mill_metric fanuc_mill_imperial)].
