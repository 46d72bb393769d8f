(** The cases of parser_ut/fanuc/AttributesPathCalculatorTest.cpp: histories of
    blocks with what the calculator says after each. *)
From Verif Require Import Model.Base Model.Attr Model.Double Model.Macro Model.Enums Model.Verifiers Model.PathGeom Model.PathCalc Checks.Approx.
Local Open Scope string_scope.
Local Open Scope Z_scope.

(** 38-71. *)
Definition cnc : cnc_defaults :=
  mkCnc 0 17 false 90 94 false 98 3 false false false false false false false false.
Definition mill : machine :=
  mkMachine false MTMill [] [("X", dzero); ("Y", dzero); ("Z", dzero)] ["X"; "Y"; "Z"] (dz 20000) 6 0 0 false false
            "" "" "M" "123" cnc.

Definition tol : dbl := d_of_ratio false 1 (10 ^ 8).
Definition is (a b : dbl) : bool := near tol a b.

(** Tool, work, rapid, total of the tool, total; whether the block is taken; the
    ranges; the macros. *)
Record said : Type := Said {
  s_tool : string; s_work : dbl; s_fast : dbl; s_tool_total : dbl; s_total : dbl;
  s_taken : bool; s_range : list (string * (dbl * dbl * dbl)); s_macros : list (Z * Z * dbl) }.

Definition path_is (p : path_result) (s : said) : bool :=
  String.eqb (p_tool_id p) (s_tool s) && is (s_work s) (p_work p) && is (s_fast s) (p_fast p)
  && is (s_tool_total s) (p_tool_total p) && is (s_total s) (p_total p).

Definition range_is (w : word_range_map) (l : list (string * (dbl * dbl * dbl))) : bool :=
  Nat.eqb (List.length w) (List.length l) &&
  forallb (fun e => match assoc (fst e) w with
                    | Some (a, b, c) => let '(x, y, z) := snd e in is x a && is y b && is z c
                    | None => false
                    end) l.

Definition macros_are (m : macro_map dbl) (l : list (Z * Z * dbl)) : bool :=
  Nat.eqb (List.length m) (List.length l) &&
  forallb (fun e => let '(i, n, v) := e in
                    existsb (fun x => (k_id (fst x) =? i) && (k_line (fst x) =? n) && is v (snd x)) m) l.

Definition taken (r : option exn) (ok : bool) : bool :=
  match r with None => ok | Some (EPathCalc _) => negb ok | Some _ => false end.

(** 108-158. *)
Fixpoint agrees (c : calc) (l : list (block * said)) : list bool :=
  match l with
  | [] => []
  | (b, s) :: l =>
      let '(c', m, r) := evaluate atan_series log_series dabs 90 mill false 1 b c [] in
      (path_is (c_path c') s && range_is (c_range c') (s_range s) && macros_are m (s_macros s) && taken r (s_taken s))
      :: agrees c' l
  end.

Definition all_agree (l : list (block * said)) : Prop := agrees (calc_new mill) l = map (fun _ => true) l.

(** G90_absolute_programming *)
Example apc_G90_absolute_programming : all_agree
  [([ADec (mkDec "T" None None None None (Some "4") None None None); ADec (mkDec "M" None None None None (Some "6") None None None)],
    Said "4" dzero dzero dzero dzero true
     [("X", (dzero, dzero, dzero)); ("Y", (dzero, dzero, dzero)); ("Z", (dzero, dzero, dzero))]
     [(4120, 1, (d_of_ratio false 4 1)); (4320, 1, (d_of_ratio false 4 1)); (4520, 1, (d_of_ratio false 4 1))]);
   ([ADec (mkDec "X" None None None None (Some "0") None None None); ADec (mkDec "Y" None None None None (Some "0") None None None); ADec (mkDec "Z" None None None None (Some "0") None None None)],
    Said "4" dzero dzero dzero dzero true
     [("X", (dzero, dzero, dzero)); ("Y", (dzero, dzero, dzero)); ("Z", (dzero, dzero, dzero))]
     []);
   ([ADec (mkDec "G" None None None None (Some "90") None None None); ADec (mkDec "G" None None None None (Some "0") None None None); ADec (mkDec "X" None None None None (Some "4") None None None); ADec (mkDec "Y" None None None None (Some "5") None None None); ADec (mkDec "Z" None None None None (Some "2") None None None)],
    Said "4" dzero (d_of_ratio false 670820393249937 100000000000000) (d_of_ratio false 670820393249937 100000000000000) (d_of_ratio false 670820393249937 100000000000000) true
     [("X", (dzero, (d_of_ratio false 4 1), (d_of_ratio false 4 1))); ("Y", (dzero, (d_of_ratio false 5 1), (d_of_ratio false 5 1))); ("Z", (dzero, (d_of_ratio false 2 1), (d_of_ratio false 2 1)))]
     []);
   ([ADec (mkDec "X" None None None None (Some "3") None None None); ADec (mkDec "Y" None None None None (Some "4") None None None)],
    Said "4" dzero (d_of_ratio false 14142135623731 10000000000000) (d_of_ratio false 812241749487247 100000000000000) (d_of_ratio false 812241749487247 100000000000000) true
     [("X", (dzero, (d_of_ratio false 3 1), (d_of_ratio false 4 1))); ("Y", (dzero, (d_of_ratio false 4 1), (d_of_ratio false 5 1))); ("Z", (dzero, (d_of_ratio false 2 1), (d_of_ratio false 2 1)))]
     []);
   ([ADec (mkDec "G" None None None None (Some "1") None None None); ADec (mkDec "Y" None None None None (Some "6") None None None); ADec (mkDec "F" None None None None (Some "2") None None None)],
    Said "4" (d_of_ratio false 2 1) dzero (d_of_ratio false 1012241749487247 100000000000000) (d_of_ratio false 1012241749487247 100000000000000) true
     [("X", (dzero, (d_of_ratio false 3 1), (d_of_ratio false 4 1))); ("Y", (dzero, (d_of_ratio false 6 1), (d_of_ratio false 6 1))); ("Z", (dzero, (d_of_ratio false 2 1), (d_of_ratio false 2 1)))]
     []);
   ([ADec (mkDec "G" None None None None (Some "2") None None None); ADec (mkDec "X" None None None None (Some "2") None None None); ADec (mkDec "Y" None None None None (Some "3") None None None); ADec (mkDec "I" None None None None (Some "2") None None None)],
    Said "4" dzero dzero (d_of_ratio false 1012241749487247 100000000000000) (d_of_ratio false 1012241749487247 100000000000000) false
     [("X", (dzero, (d_of_ratio false 3 1), (d_of_ratio false 4 1))); ("Y", (dzero, (d_of_ratio false 6 1), (d_of_ratio false 6 1))); ("Z", (dzero, (d_of_ratio false 2 1), (d_of_ratio false 2 1)))]
     []);
   ([ADec (mkDec "G" None None None None (Some "2") None None None); ADec (mkDec "G" None None None None (Some "17") None None None); ADec (mkDec "X" None None None None (Some "2") None None None); ADec (mkDec "Y" None None None None (Some "3") None None None); ADec (mkDec "I" None None None None (Some "2") None None None)],
    Said "4" dzero dzero (d_of_ratio false 1012241749487247 100000000000000) (d_of_ratio false 1012241749487247 100000000000000) false
     [("X", (dzero, (d_of_ratio false 3 1), (d_of_ratio false 4 1))); ("Y", (dzero, (d_of_ratio false 6 1), (d_of_ratio false 6 1))); ("Z", (dzero, (d_of_ratio false 2 1), (d_of_ratio false 2 1)))]
     []);
   ([ADec (mkDec "G" None None None None (Some "2") None None None); ADec (mkDec "G" None None None None (Some "17") None None None); ADec (mkDec "X" None None None None (Some "2") None None None); ADec (mkDec "Y" None None None None (Some "3") None None None); ADec (mkDec "I" None None None None (Some "2") None None None); ADec (mkDec "J" None None None None (Some "3") None None None)],
    Said "4" (d_of_ratio false 65471222784721 20000000000000) dzero (d_of_ratio false 334899465852713 25000000000000) (d_of_ratio false 334899465852713 25000000000000) true
     [("I", ((d_of_ratio false 2 1), (d_of_ratio false 2 1), (d_of_ratio false 2 1))); ("J", ((d_of_ratio false 3 1), (d_of_ratio false 3 1), (d_of_ratio false 3 1))); ("X", (dzero, (d_of_ratio false 2 1), (d_of_ratio false 4 1))); ("Y", (dzero, (d_of_ratio false 3 1), (d_of_ratio false 6 1))); ("Z", (dzero, (d_of_ratio false 2 1), (d_of_ratio false 2 1)))]
     []);
   ([ADec (mkDec "G" None None None None (Some "18") None None None); ADec (mkDec "Z" None None None None (Some "4") None None None); ADec (mkDec "K" None None None None (Some "3") None None None)],
    Said "4" (d_of_ratio false 202657149512673 100000000000000) dzero (d_of_ratio false 61690200516941 4000000000000) (d_of_ratio false 61690200516941 4000000000000) true
     [("I", ((d_of_ratio false 2 1), (d_of_ratio false 2 1), (d_of_ratio false 2 1))); ("J", ((d_of_ratio false 3 1), (d_of_ratio false 3 1), (d_of_ratio false 3 1))); ("K", ((d_of_ratio false 3 1), (d_of_ratio false 3 1), (d_of_ratio false 3 1))); ("X", (dzero, (d_of_ratio false 2 1), (d_of_ratio false 4 1))); ("Y", (dzero, (d_of_ratio false 3 1), (d_of_ratio false 6 1))); ("Z", (dzero, (d_of_ratio false 4 1), (d_of_ratio false 4 1)))]
     []);
   ([ADec (mkDec "G" None None None None (Some "3") None None None); ADec (mkDec "X" None None None None (Some "3") None None None); ADec (mkDec "I" None None None None (Some "3") None None None)],
    Said "4" (d_of_ratio false 50116470157803 50000000000000) dzero (d_of_ratio false 1642487953239131 100000000000000) (d_of_ratio false 1642487953239131 100000000000000) true
     [("I", ((d_of_ratio false 2 1), (d_of_ratio false 3 1), (d_of_ratio false 3 1))); ("J", ((d_of_ratio false 3 1), (d_of_ratio false 3 1), (d_of_ratio false 3 1))); ("K", ((d_of_ratio false 3 1), (d_of_ratio false 3 1), (d_of_ratio false 3 1))); ("X", (dzero, (d_of_ratio false 3 1), (d_of_ratio false 4 1))); ("Y", (dzero, (d_of_ratio false 3 1), (d_of_ratio false 6 1))); ("Z", (dzero, (d_of_ratio false 4 1), (d_of_ratio false 4 1)))]
     []);
   ([ADec (mkDec "T" None None None None (Some "5") None None None); ADec (mkDec "M" None None None None (Some "6") None None None)],
    Said "5" dzero dzero dzero (d_of_ratio false 4106219883 250000000) true
     [("I", ((d_of_ratio false 2 1), (d_of_ratio false 3 1), (d_of_ratio false 3 1))); ("J", ((d_of_ratio false 3 1), (d_of_ratio false 3 1), (d_of_ratio false 3 1))); ("K", ((d_of_ratio false 3 1), (d_of_ratio false 3 1), (d_of_ratio false 3 1))); ("X", (dzero, (d_of_ratio false 3 1), (d_of_ratio false 4 1))); ("Y", (dzero, (d_of_ratio false 3 1), (d_of_ratio false 6 1))); ("Z", (dzero, (d_of_ratio false 4 1), (d_of_ratio false 4 1)))]
     [(4120, 1, (d_of_ratio false 5 1)); (4320, 1, (d_of_ratio false 5 1)); (4520, 1, (d_of_ratio false 5 1))]);
   ([ADec (mkDec "T" None None None None (Some "5") None None None)],
    Said "5" dzero dzero dzero (d_of_ratio false 4106219883 250000000) true
     [("I", ((d_of_ratio false 2 1), (d_of_ratio false 3 1), (d_of_ratio false 3 1))); ("J", ((d_of_ratio false 3 1), (d_of_ratio false 3 1), (d_of_ratio false 3 1))); ("K", ((d_of_ratio false 3 1), (d_of_ratio false 3 1), (d_of_ratio false 3 1))); ("X", (dzero, (d_of_ratio false 3 1), (d_of_ratio false 4 1))); ("Y", (dzero, (d_of_ratio false 3 1), (d_of_ratio false 6 1))); ("Z", (dzero, (d_of_ratio false 4 1), (d_of_ratio false 4 1)))]
     []);
   ([ADec (mkDec "G" None None None None (Some "3") None None None); ADec (mkDec "G" None None None None (Some "17") None None None); ADec (mkDec "X" None None None None (Some "2") None None None); ADec (mkDec "Y" None None None None (Some "3") None None None); ADec (mkDec "I" None None None None (Some "2") None None None); ADec (mkDec "J" None None None None (Some "3") None None None)],
    Said "5" (d_of_ratio false 4012932746421 4000000000000) dzero (d_of_ratio false 4012932746421 4000000000000) (d_of_ratio false 69712450874421 4000000000000) true
     [("I", ((d_of_ratio false 2 1), (d_of_ratio false 2 1), (d_of_ratio false 3 1))); ("J", ((d_of_ratio false 3 1), (d_of_ratio false 3 1), (d_of_ratio false 3 1))); ("K", ((d_of_ratio false 3 1), (d_of_ratio false 3 1), (d_of_ratio false 3 1))); ("X", (dzero, (d_of_ratio false 2 1), (d_of_ratio false 4 1))); ("Y", (dzero, (d_of_ratio false 3 1), (d_of_ratio false 6 1))); ("Z", (dzero, (d_of_ratio false 4 1), (d_of_ratio false 4 1)))]
     [])].
Proof. vm_compute. reflexivity. Qed.

(** Not_crash_test *)
Example apc_Not_crash_test : all_agree
  [([ADec (mkDec "T" None None None None (Some "4") None None None); ADec (mkDec "M" None None None None (Some "6") None None None)],
    Said "4" dzero dzero dzero dzero true
     [("X", (dzero, dzero, dzero)); ("Y", (dzero, dzero, dzero)); ("Z", (dzero, dzero, dzero))]
     [(4120, 1, (d_of_ratio false 4 1)); (4320, 1, (d_of_ratio false 4 1)); (4520, 1, (d_of_ratio false 4 1))]);
   ([ADec (mkDec "X" None None None None (Some "0") None None None); ADec (mkDec "Y" None None None None (Some "0") None None None); ADec (mkDec "Z" None None None None (Some "0") None None None)],
    Said "4" dzero dzero dzero dzero true
     [("X", (dzero, dzero, dzero)); ("Y", (dzero, dzero, dzero)); ("Z", (dzero, dzero, dzero))]
     []);
   ([ADec (mkDec "G" None None None None (Some "1") None None None); ADec (mkDec "Z" None None (Some "[") None None None None None); ADec (mkDec "-" None None None None (Some "7") (Some "."%char) (Some "8") None); ADec (mkDec "-" None None None None (Some "26") None None (Some "]"))],
    Said "4" dzero dzero dzero dzero true
     [("X", (dzero, dzero, dzero)); ("Y", (dzero, dzero, dzero)); ("Z", (dzero, dzero, dzero))]
     []);
   ([ADec (mkDec "F" None None (Some "[") None None None None None); ADec (mkDec "-" None None None None (Some "2") None None None); ADec (mkDec "+" None None None None (Some "5") None None (Some "]"))],
    Said "4" dzero dzero dzero dzero true
     [("X", (dzero, dzero, dzero)); ("Y", (dzero, dzero, dzero)); ("Z", (dzero, dzero, dzero))]
     []);
   ([ADec (mkDec "S" None None (Some "[") None None None None None); ADec (mkDec "-" None None None None (Some "2") None None None); ADec (mkDec "+" None None None None (Some "5") None None (Some "]"))],
    Said "4" dzero dzero dzero dzero true
     [("X", (dzero, dzero, dzero)); ("Y", (dzero, dzero, dzero)); ("Z", (dzero, dzero, dzero))]
     [])].
Proof. vm_compute. reflexivity. Qed.

(** Helix_360_full_arc_G90_absolute_programming *)
Example apc_Helix_360_full_arc_G90_absolute_programming : all_agree
  [([ADec (mkDec "T" None None None None (Some "2") None None None); ADec (mkDec "M" None None None None (Some "6") None None None)],
    Said "2" dzero dzero dzero dzero true
     [("X", (dzero, dzero, dzero)); ("Y", (dzero, dzero, dzero)); ("Z", (dzero, dzero, dzero))]
     [(4120, 1, (d_of_ratio false 2 1)); (4320, 1, (d_of_ratio false 2 1)); (4520, 1, (d_of_ratio false 2 1))]);
   ([ADec (mkDec "G" None None None None (Some "90") None None None); ADec (mkDec "G" None None None None (Some "17") None None None); ADec (mkDec "G" None None None None (Some "90") None None None)],
    Said "2" dzero dzero dzero dzero true
     [("X", (dzero, dzero, dzero)); ("Y", (dzero, dzero, dzero)); ("Z", (dzero, dzero, dzero))]
     []);
   ([ADec (mkDec "G" None None None None (Some "90") None None None); ADec (mkDec "X" None None None None (Some "162") (Some "."%char) (Some "453") None); ADec (mkDec "Y" None None None None (Some "112") (Some "."%char) (Some "453") None)],
    Said "2" dzero (d_of_ratio false 98788479108143 500000000000) (d_of_ratio false 98788479108143 500000000000) (d_of_ratio false 98788479108143 500000000000) true
     [("X", (dzero, (d_of_ratio false 162453 1000), (d_of_ratio false 162453 1000))); ("Y", (dzero, (d_of_ratio false 112453 1000), (d_of_ratio false 112453 1000))); ("Z", (dzero, dzero, dzero))]
     []);
   ([ADec (mkDec "Z" None None None None (Some "153") (Some "."%char) None None)],
    Said "2" dzero (d_of_ratio false 153 1) (d_of_ratio false 175288479108143 500000000000) (d_of_ratio false 175288479108143 500000000000) true
     [("X", (dzero, (d_of_ratio false 162453 1000), (d_of_ratio false 162453 1000))); ("Y", (dzero, (d_of_ratio false 112453 1000), (d_of_ratio false 112453 1000))); ("Z", (dzero, (d_of_ratio false 153 1), (d_of_ratio false 153 1)))]
     []);
   ([ADec (mkDec "G" None None None None (Some "94") None None None); ADec (mkDec "G" None None None None (Some "02") None None None); ADec (mkDec "X" None None None None (Some "150") (Some "."%char) None None); ADec (mkDec "Y" None None None None (Some "150") (Some "."%char) None None); ADec (mkDec "I" None None None None (Some "50") (Some "."%char) (Some "38") None); ADec (mkDec "J" None None None None (Some "37") (Some "."%char) (Some "547") None); ADec (mkDec "F" None None None None (Some "250") (Some "."%char) None None)],
    Said "2" (d_of_ratio false 25151590852427 625000000000) dzero (d_of_ratio false 977048758950423 2500000000000) (d_of_ratio false 977048758950423 2500000000000) true
     [("I", ((d_of_ratio false 2519 50), (d_of_ratio false 2519 50), (d_of_ratio false 2519 50))); ("J", ((d_of_ratio false 37547 1000), (d_of_ratio false 37547 1000), (d_of_ratio false 37547 1000))); ("X", (dzero, (d_of_ratio false 150 1), (d_of_ratio false 162453 1000))); ("Y", (dzero, (d_of_ratio false 150 1), (d_of_ratio false 150 1))); ("Z", (dzero, (d_of_ratio false 153 1), (d_of_ratio false 153 1)))]
     []);
   ([ADec (mkDec "X" None None None None (Some "150") (Some "."%char) None None); ADec (mkDec "Y" None None None None (Some "150") (Some "."%char) None None); ADec (mkDec "Z" None None None None (Some "148") (Some "."%char) None None); ADec (mkDec "I" None None None None (Some "50") (Some "."%char) None None); ADec (mkDec "J" None None None None (Some "0") (Some "."%char) (Some "0") None); ADec (mkDec "K" None (Some "-"%char) None None None (Some "."%char) (Some "796") None)],
    Said "2" (d_of_ratio false 63145230841609 200000000000) dzero (d_of_ratio false 3532728288941071 5000000000000) (d_of_ratio false 3532728288941071 5000000000000) true
     [("I", ((d_of_ratio false 50 1), (d_of_ratio false 50 1), (d_of_ratio false 2519 50))); ("J", (dzero, dzero, (d_of_ratio false 37547 1000))); ("K", ((d_of_ratio true 199 250), (d_of_ratio true 199 250), (d_of_ratio true 199 250))); ("X", (dzero, (d_of_ratio false 150 1), (d_of_ratio false 162453 1000))); ("Y", (dzero, (d_of_ratio false 150 1), (d_of_ratio false 150 1))); ("Z", (dzero, (d_of_ratio false 148 1), (d_of_ratio false 153 1)))]
     []);
   ([ADec (mkDec "Z" None None None None (Some "143") (Some "."%char) None None)],
    Said "2" (d_of_ratio false 63145230841609 200000000000) dzero (d_of_ratio false 319459941248831 312500000000) (d_of_ratio false 319459941248831 312500000000) true
     [("I", ((d_of_ratio false 50 1), (d_of_ratio false 50 1), (d_of_ratio false 2519 50))); ("J", (dzero, dzero, (d_of_ratio false 37547 1000))); ("K", ((d_of_ratio true 199 250), (d_of_ratio true 199 250), (d_of_ratio true 199 250))); ("X", (dzero, (d_of_ratio false 150 1), (d_of_ratio false 162453 1000))); ("Y", (dzero, (d_of_ratio false 150 1), (d_of_ratio false 150 1))); ("Z", (dzero, (d_of_ratio false 143 1), (d_of_ratio false 153 1)))]
     []);
   ([ADec (mkDec "X" None None None None (Some "240") (Some "."%char) (Some "451") None); ADec (mkDec "Y" None None None None (Some "120") (Some "."%char) (Some "611") None); ADec (mkDec "Z" None None None None (Some "100") (Some "."%char) None None); ADec (mkDec "I" None None None None (Some "50") (Some "."%char) None None); ADec (mkDec "J" None None None None (Some "0") (Some "."%char) (Some "0") None); ADec (mkDec "K" None (Some "-"%char) None None None (Some "."%char) (Some "796") None)],
    Said "2" (d_of_ratio false 207178448542163 1000000000000) dzero (d_of_ratio false 6147251302692111 5000000000000) (d_of_ratio false 6147251302692111 5000000000000) true
     [("I", ((d_of_ratio false 50 1), (d_of_ratio false 50 1), (d_of_ratio false 2519 50))); ("J", (dzero, dzero, (d_of_ratio false 37547 1000))); ("K", ((d_of_ratio true 199 250), (d_of_ratio true 199 250), (d_of_ratio true 199 250))); ("X", (dzero, (d_of_ratio false 240451 1000), (d_of_ratio false 240451 1000))); ("Y", (dzero, (d_of_ratio false 120611 1000), (d_of_ratio false 150 1))); ("Z", (dzero, (d_of_ratio false 100 1), (d_of_ratio false 153 1)))]
     [])].
Proof. vm_compute. reflexivity. Qed.

(** Helix_4x90_arc_G90_absolute_programming *)
Example apc_Helix_4x90_arc_G90_absolute_programming : all_agree
  [([ADec (mkDec "T" None None None None (Some "2") None None None); ADec (mkDec "M" None None None None (Some "6") None None None)],
    Said "2" dzero dzero dzero dzero true
     [("X", (dzero, dzero, dzero)); ("Y", (dzero, dzero, dzero)); ("Z", (dzero, dzero, dzero))]
     [(4120, 1, (d_of_ratio false 2 1)); (4320, 1, (d_of_ratio false 2 1)); (4520, 1, (d_of_ratio false 2 1))]);
   ([ADec (mkDec "G" None None None None (Some "17") None None None); ADec (mkDec "G" None None None None (Some "90") None None None)],
    Said "2" dzero dzero dzero dzero true
     [("X", (dzero, dzero, dzero)); ("Y", (dzero, dzero, dzero)); ("Z", (dzero, dzero, dzero))]
     []);
   ([ADec (mkDec "G" None None None None (Some "90") None None None); ADec (mkDec "X" None None None None (Some "162") (Some "."%char) (Some "453") None); ADec (mkDec "Y" None None None None (Some "112") (Some "."%char) (Some "453") None); ADec (mkDec "Z" None None None None (Some "160") (Some "."%char) None None)],
    Said "2" dzero (d_of_ratio false 127118698878253 500000000000) (d_of_ratio false 127118698878253 500000000000) (d_of_ratio false 127118698878253 500000000000) true
     [("X", (dzero, (d_of_ratio false 162453 1000), (d_of_ratio false 162453 1000))); ("Y", (dzero, (d_of_ratio false 112453 1000), (d_of_ratio false 112453 1000))); ("Z", (dzero, (d_of_ratio false 160 1), (d_of_ratio false 160 1)))]
     []);
   ([ADec (mkDec "Z" None None None None (Some "153") (Some "."%char) None None)],
    Said "2" dzero (d_of_ratio false 7 1) (d_of_ratio false 130618698878253 500000000000) (d_of_ratio false 130618698878253 500000000000) true
     [("X", (dzero, (d_of_ratio false 162453 1000), (d_of_ratio false 162453 1000))); ("Y", (dzero, (d_of_ratio false 112453 1000), (d_of_ratio false 112453 1000))); ("Z", (dzero, (d_of_ratio false 153 1), (d_of_ratio false 160 1)))]
     []);
   ([ADec (mkDec "G" None None None None (Some "02") None None None); ADec (mkDec "X" None None None None (Some "150") (Some "."%char) None None); ADec (mkDec "Y" None None None None (Some "150") (Some "."%char) None None); ADec (mkDec "I" None None None None (Some "50") (Some "."%char) (Some "38") None); ADec (mkDec "J" None None None None (Some "37") (Some "."%char) (Some "547") None); ADec (mkDec "F" None None None None (Some "250") (Some "."%char) None None)],
    Said "2" (d_of_ratio false 25151590852427 625000000000) dzero (d_of_ratio false 753699857800973 2500000000000) (d_of_ratio false 753699857800973 2500000000000) true
     [("I", ((d_of_ratio false 2519 50), (d_of_ratio false 2519 50), (d_of_ratio false 2519 50))); ("J", ((d_of_ratio false 37547 1000), (d_of_ratio false 37547 1000), (d_of_ratio false 37547 1000))); ("X", (dzero, (d_of_ratio false 150 1), (d_of_ratio false 162453 1000))); ("Y", (dzero, (d_of_ratio false 150 1), (d_of_ratio false 150 1))); ("Z", (dzero, (d_of_ratio false 153 1), (d_of_ratio false 160 1)))]
     []);
   ([ADec (mkDec "X" None None None None (Some "200") (Some "."%char) None None); ADec (mkDec "Y" None None None None (Some "200") (Some "."%char) None None); ADec (mkDec "Z" None None None None (Some "151") (Some "."%char) (Some "75") None); ADec (mkDec "I" None None None None (Some "50") (Some "."%char) None None); ADec (mkDec "J" None None None None (Some "0") (Some "."%char) (Some "0") None); ADec (mkDec "K" None (Some "-"%char) None None None (Some "."%char) (Some "796") None)],
    Said "2" (d_of_ratio false 394657692760057 5000000000000) dzero (d_of_ratio false 1902057408362003 5000000000000) (d_of_ratio false 1902057408362003 5000000000000) true
     [("I", ((d_of_ratio false 50 1), (d_of_ratio false 50 1), (d_of_ratio false 2519 50))); ("J", (dzero, dzero, (d_of_ratio false 37547 1000))); ("K", ((d_of_ratio true 199 250), (d_of_ratio true 199 250), (d_of_ratio true 199 250))); ("X", (dzero, (d_of_ratio false 200 1), (d_of_ratio false 200 1))); ("Y", (dzero, (d_of_ratio false 200 1), (d_of_ratio false 200 1))); ("Z", (dzero, (d_of_ratio false 607 4), (d_of_ratio false 160 1)))]
     []);
   ([ADec (mkDec "X" None None None None (Some "250") (Some "."%char) None None); ADec (mkDec "Y" None None None None (Some "150") (Some "."%char) None None); ADec (mkDec "Z" None None None None (Some "150") (Some "."%char) (Some "5") None); ADec (mkDec "I" None None None None (Some "0") (Some "."%char) (Some "0") None); ADec (mkDec "J" None (Some "-"%char) None None (Some "50") (Some "."%char) None None)],
    Said "2" (d_of_ratio false 394657692760057 5000000000000) dzero (d_of_ratio false 114835755056103 250000000000) (d_of_ratio false 114835755056103 250000000000) true
     [("I", (dzero, dzero, (d_of_ratio false 2519 50))); ("J", ((d_of_ratio true 50 1), (d_of_ratio true 50 1), (d_of_ratio false 37547 1000))); ("K", ((d_of_ratio true 199 250), (d_of_ratio true 199 250), (d_of_ratio true 199 250))); ("X", (dzero, (d_of_ratio false 250 1), (d_of_ratio false 250 1))); ("Y", (dzero, (d_of_ratio false 150 1), (d_of_ratio false 200 1))); ("Z", (dzero, (d_of_ratio false 301 2), (d_of_ratio false 160 1)))]
     []);
   ([ADec (mkDec "X" None None None None (Some "200") (Some "."%char) None None); ADec (mkDec "Y" None None None None (Some "100") (Some "."%char) None None); ADec (mkDec "Z" None None None None (Some "149") (Some "."%char) (Some "25") None); ADec (mkDec "I" None (Some "-"%char) None None (Some "50") (Some "."%char) None None); ADec (mkDec "J" None (Some "-"%char) None None (Some "0") (Some "."%char) (Some "0") None)],
    Said "2" (d_of_ratio false 394657692760057 5000000000000) dzero (d_of_ratio false 2691372793882117 5000000000000) (d_of_ratio false 2691372793882117 5000000000000) true
     [("I", ((d_of_ratio true 50 1), (d_of_ratio true 50 1), (d_of_ratio false 2519 50))); ("J", ((d_of_ratio true 50 1), dzero, (d_of_ratio false 37547 1000))); ("K", ((d_of_ratio true 199 250), (d_of_ratio true 199 250), (d_of_ratio true 199 250))); ("X", (dzero, (d_of_ratio false 200 1), (d_of_ratio false 250 1))); ("Y", (dzero, (d_of_ratio false 100 1), (d_of_ratio false 200 1))); ("Z", (dzero, (d_of_ratio false 597 4), (d_of_ratio false 160 1)))]
     []);
   ([ADec (mkDec "X" None None None None (Some "150") (Some "."%char) None None); ADec (mkDec "Y" None None None None (Some "150") (Some "."%char) None None); ADec (mkDec "Z" None None None None (Some "148") (Some "."%char) None None); ADec (mkDec "I" None None None None (Some "0") (Some "."%char) (Some "0") None); ADec (mkDec "J" None None None None (Some "50") (Some "."%char) None None)],
    Said "2" (d_of_ratio false 394657692760057 5000000000000) dzero (d_of_ratio false 1543015243321087 2500000000000) (d_of_ratio false 1543015243321087 2500000000000) true
     [("I", ((d_of_ratio true 50 1), dzero, (d_of_ratio false 2519 50))); ("J", ((d_of_ratio true 50 1), (d_of_ratio false 50 1), (d_of_ratio false 50 1))); ("K", ((d_of_ratio true 199 250), (d_of_ratio true 199 250), (d_of_ratio true 199 250))); ("X", (dzero, (d_of_ratio false 150 1), (d_of_ratio false 250 1))); ("Y", (dzero, (d_of_ratio false 150 1), (d_of_ratio false 200 1))); ("Z", (dzero, (d_of_ratio false 148 1), (d_of_ratio false 160 1)))]
     []);
   ([ADec (mkDec "X" None None None None (Some "200") (Some "."%char) None None); ADec (mkDec "Y" None None None None (Some "200") (Some "."%char) None None); ADec (mkDec "Z" None None None None (Some "146") (Some "."%char) (Some "75") None); ADec (mkDec "I" None None None None (Some "50") (Some "."%char) None None); ADec (mkDec "J" None None None None (Some "0") (Some "."%char) (Some "0") None)],
    Said "2" (d_of_ratio false 394657692760057 5000000000000) dzero (d_of_ratio false 3480688179402231 5000000000000) (d_of_ratio false 3480688179402231 5000000000000) true
     [("I", ((d_of_ratio true 50 1), (d_of_ratio false 50 1), (d_of_ratio false 2519 50))); ("J", ((d_of_ratio true 50 1), dzero, (d_of_ratio false 50 1))); ("K", ((d_of_ratio true 199 250), (d_of_ratio true 199 250), (d_of_ratio true 199 250))); ("X", (dzero, (d_of_ratio false 200 1), (d_of_ratio false 250 1))); ("Y", (dzero, (d_of_ratio false 200 1), (d_of_ratio false 200 1))); ("Z", (dzero, (d_of_ratio false 587 4), (d_of_ratio false 160 1)))]
     []);
   ([ADec (mkDec "X" None None None None (Some "250") (Some "."%char) None None); ADec (mkDec "Y" None None None None (Some "150") (Some "."%char) None None); ADec (mkDec "Z" None None None None (Some "145") (Some "."%char) (Some "5") None); ADec (mkDec "I" None None None None (Some "0") (Some "."%char) (Some "0") None); ADec (mkDec "J" None (Some "-"%char) None None (Some "50") (Some "."%char) None None)],
    Said "2" (d_of_ratio false 394657692760057 5000000000000) dzero (d_of_ratio false 242209117010143 312500000000) (d_of_ratio false 242209117010143 312500000000) true
     [("I", ((d_of_ratio true 50 1), dzero, (d_of_ratio false 2519 50))); ("J", ((d_of_ratio true 50 1), (d_of_ratio true 50 1), (d_of_ratio false 50 1))); ("K", ((d_of_ratio true 199 250), (d_of_ratio true 199 250), (d_of_ratio true 199 250))); ("X", (dzero, (d_of_ratio false 250 1), (d_of_ratio false 250 1))); ("Y", (dzero, (d_of_ratio false 150 1), (d_of_ratio false 200 1))); ("Z", (dzero, (d_of_ratio false 291 2), (d_of_ratio false 160 1)))]
     []);
   ([ADec (mkDec "X" None None None None (Some "240") (Some "."%char) (Some "451") None); ADec (mkDec "Y" None None None None (Some "120") (Some "."%char) (Some "611") None); ADec (mkDec "Z" None None None None (Some "145") (Some "."%char) None None); ADec (mkDec "I" None (Some "-"%char) None None (Some "50") (Some "."%char) None None); ADec (mkDec "J" None None None None (Some "0") (Some "."%char) (Some "0") None); ADec (mkDec "K" None (Some "-"%char) None None None (Some "."%char) (Some "796") None)],
    Said "2" (d_of_ratio false 157205246160323 2000000000000) dzero (d_of_ratio false 8536717975126191 10000000000000) (d_of_ratio false 8536717975126191 10000000000000) true
     [("I", ((d_of_ratio true 50 1), (d_of_ratio true 50 1), (d_of_ratio false 2519 50))); ("J", ((d_of_ratio true 50 1), dzero, (d_of_ratio false 50 1))); ("K", ((d_of_ratio true 199 250), (d_of_ratio true 199 250), (d_of_ratio true 199 250))); ("X", (dzero, (d_of_ratio false 240451 1000), (d_of_ratio false 250 1))); ("Y", (dzero, (d_of_ratio false 120611 1000), (d_of_ratio false 200 1))); ("Z", (dzero, (d_of_ratio false 145 1), (d_of_ratio false 160 1)))]
     []);
   ([ADec (mkDec "I" None (Some "-"%char) None None (Some "40") (Some "."%char) (Some "451") None); ADec (mkDec "J" None None None None (Some "29") (Some "."%char) (Some "389") None)],
    Said "2" (d_of_ratio false 314159059396097 1000000000000) dzero (d_of_ratio false 11678308569087161 10000000000000) (d_of_ratio false 11678308569087161 10000000000000) true
     [("I", ((d_of_ratio true 50 1), (d_of_ratio true 40451 1000), (d_of_ratio false 2519 50))); ("J", ((d_of_ratio true 50 1), (d_of_ratio false 29389 1000), (d_of_ratio false 50 1))); ("K", ((d_of_ratio true 199 250), (d_of_ratio true 199 250), (d_of_ratio true 199 250))); ("X", (dzero, (d_of_ratio false 240451 1000), (d_of_ratio false 250 1))); ("Y", (dzero, (d_of_ratio false 120611 1000), (d_of_ratio false 200 1))); ("Z", (dzero, (d_of_ratio false 145 1), (d_of_ratio false 160 1)))]
     [])].
Proof. vm_compute. reflexivity. Qed.

(** Helix_Archimedes_G90_absolute_programming *)
Example apc_Helix_Archimedes_G90_absolute_programming : all_agree
  [([ADec (mkDec "T" None None None None (Some "22") None None None); ADec (mkDec "M" None None None None (Some "6") None None None)],
    Said "22" dzero dzero dzero dzero true
     [("X", (dzero, dzero, dzero)); ("Y", (dzero, dzero, dzero)); ("Z", (dzero, dzero, dzero))]
     [(4120, 1, (d_of_ratio false 22 1)); (4320, 1, (d_of_ratio false 22 1)); (4520, 1, (d_of_ratio false 22 1))]);
   ([ADec (mkDec "X" None None None None (Some "0") None None None); ADec (mkDec "Y" None None None None (Some "0") None None None); ADec (mkDec "Z" None None None None (Some "0") None None None)],
    Said "22" dzero dzero dzero dzero true
     [("X", (dzero, dzero, dzero)); ("Y", (dzero, dzero, dzero)); ("Z", (dzero, dzero, dzero))]
     []);
   ([ADec (mkDec "G" None None None None (Some "0") None None None); ADec (mkDec "G" None None None None (Some "17") None None None); ADec (mkDec "G" None None None None (Some "90") None None None); ADec (mkDec "X" None None None None (Some "40") None None None); ADec (mkDec "Y" None None None None (Some "0") None None None)],
    Said "22" dzero (d_of_ratio false 40 1) (d_of_ratio false 40 1) (d_of_ratio false 40 1) true
     [("X", (dzero, (d_of_ratio false 40 1), (d_of_ratio false 40 1))); ("Y", (dzero, dzero, dzero)); ("Z", (dzero, dzero, dzero))]
     []);
   ([ADec (mkDec "G" None None None None (Some "2") None None None); ADec (mkDec "X" None None None None (Some "0") None None None); ADec (mkDec "Y" None None None None (Some "0") None None None); ADec (mkDec "I" None (Some "-"%char) None None (Some "40") None None None); ADec (mkDec "J" None None None None (Some "0") None None None); ADec (mkDec "Q" None None None None (Some "5") None None None); ADec (mkDec "F" None None None None (Some "3") None None None)],
    Said "22" (d_of_ratio false 100734305856097 100000000000) dzero (d_of_ratio false 104734305856097 100000000000) (d_of_ratio false 104734305856097 100000000000) true
     [("I", ((d_of_ratio true 40 1), (d_of_ratio true 40 1), (d_of_ratio true 40 1))); ("J", (dzero, dzero, dzero)); ("X", (dzero, dzero, (d_of_ratio false 40 1))); ("Y", (dzero, dzero, dzero)); ("Z", (dzero, dzero, dzero))]
     []);
   ([ADec (mkDec "G" None None None None (Some "2") None None None); ADec (mkDec "X" None None None None (Some "0") None None None); ADec (mkDec "Y" None None None None (Some "0") None None None); ADec (mkDec "I" None (Some "-"%char) None None (Some "40") None None None); ADec (mkDec "J" None None None None (Some "0") None None None); ADec (mkDec "L" None None None None (Some "5") None None None)],
    Said "22" (d_of_ratio false 31563641064499 50000000000) dzero (d_of_ratio false 33572317597019 20000000000) (d_of_ratio false 33572317597019 20000000000) true
     [("I", ((d_of_ratio true 40 1), (d_of_ratio true 40 1), (d_of_ratio true 40 1))); ("J", (dzero, dzero, dzero)); ("X", (dzero, dzero, (d_of_ratio false 40 1))); ("Y", (dzero, dzero, dzero)); ("Z", (dzero, dzero, dzero))]
     [])].
Proof. vm_compute. reflexivity. Qed.

(** G91_incremental_programming *)
Example apc_G91_incremental_programming : all_agree
  [([ADec (mkDec "T" None None None None (Some "4") None None None); ADec (mkDec "M" None None None None (Some "6") None None None)],
    Said "4" dzero dzero dzero dzero true
     [("X", (dzero, dzero, dzero)); ("Y", (dzero, dzero, dzero)); ("Z", (dzero, dzero, dzero))]
     [(4120, 1, (d_of_ratio false 4 1)); (4320, 1, (d_of_ratio false 4 1)); (4520, 1, (d_of_ratio false 4 1))]);
   ([ADec (mkDec "X" None None None None (Some "0") None None None); ADec (mkDec "Y" None None None None (Some "0") None None None); ADec (mkDec "Z" None None None None (Some "0") None None None)],
    Said "4" dzero dzero dzero dzero true
     [("X", (dzero, dzero, dzero)); ("Y", (dzero, dzero, dzero)); ("Z", (dzero, dzero, dzero))]
     []);
   ([ADec (mkDec "G" None None None None (Some "91") None None None); ADec (mkDec "G" None None None None (Some "17") None None None); ADec (mkDec "G" None None None None (Some "0") None None None); ADec (mkDec "X" None None None None (Some "4") None None None); ADec (mkDec "Y" None None None None (Some "5") None None None); ADec (mkDec "Z" None None None None (Some "2") None None None)],
    Said "4" dzero (d_of_ratio false 670820393249937 100000000000000) (d_of_ratio false 670820393249937 100000000000000) (d_of_ratio false 670820393249937 100000000000000) true
     [("X", (dzero, (d_of_ratio false 4 1), (d_of_ratio false 4 1))); ("Y", (dzero, (d_of_ratio false 5 1), (d_of_ratio false 5 1))); ("Z", (dzero, (d_of_ratio false 2 1), (d_of_ratio false 2 1)))]
     []);
   ([ADec (mkDec "X" None (Some "-"%char) None None (Some "1") None None None); ADec (mkDec "Y" None (Some "-"%char) None None (Some "1") None None None)],
    Said "4" dzero (d_of_ratio false 14142135623731 10000000000000) (d_of_ratio false 812241749487247 100000000000000) (d_of_ratio false 812241749487247 100000000000000) true
     [("X", (dzero, (d_of_ratio false 3 1), (d_of_ratio false 4 1))); ("Y", (dzero, (d_of_ratio false 4 1), (d_of_ratio false 5 1))); ("Z", (dzero, (d_of_ratio false 2 1), (d_of_ratio false 2 1)))]
     []);
   ([ADec (mkDec "G" None None None None (Some "91") None None None); ADec (mkDec "G" None None None None (Some "1") None None None); ADec (mkDec "Y" None None None None (Some "2") None None None); ADec (mkDec "F" None None None None (Some "5") None None None)],
    Said "4" (d_of_ratio false 2 1) dzero (d_of_ratio false 1012241749487247 100000000000000) (d_of_ratio false 1012241749487247 100000000000000) true
     [("X", (dzero, (d_of_ratio false 3 1), (d_of_ratio false 4 1))); ("Y", (dzero, (d_of_ratio false 6 1), (d_of_ratio false 6 1))); ("Z", (dzero, (d_of_ratio false 2 1), (d_of_ratio false 2 1)))]
     []);
   ([ADec (mkDec "G" None None None None (Some "2") None None None); ADec (mkDec "X" None None None None (Some "25") (Some "."%char) None None); ADec (mkDec "Y" None (Some "-"%char) None None (Some "43") (Some "."%char) (Some "301") None); ADec (mkDec "I" None None None None (Some "0") (Some "."%char) None None); ADec (mkDec "J" None (Some "-"%char) None None (Some "28") (Some "."%char) (Some "868") None)],
    Said "4" (d_of_ratio false 604588444785463 10000000000000) dzero (d_of_ratio false 7058126197341877 100000000000000) (d_of_ratio false 7058126197341877 100000000000000) true
     [("I", (dzero, dzero, dzero)); ("J", ((d_of_ratio true 7217 250), (d_of_ratio true 7217 250), (d_of_ratio true 7217 250))); ("X", (dzero, (d_of_ratio false 28 1), (d_of_ratio false 28 1))); ("Y", ((d_of_ratio true 37301 1000), (d_of_ratio true 37301 1000), (d_of_ratio false 6 1))); ("Z", (dzero, (d_of_ratio false 2 1), (d_of_ratio false 2 1)))]
     [])].
Proof. vm_compute. reflexivity. Qed.

(** Helix_360_full_arc_G91_incremental_programming *)
Example apc_Helix_360_full_arc_G91_incremental_programming : all_agree
  [([ADec (mkDec "T" None None None None (Some "2") None None None); ADec (mkDec "M" None None None None (Some "6") None None None)],
    Said "2" dzero dzero dzero dzero true
     [("X", (dzero, dzero, dzero)); ("Y", (dzero, dzero, dzero)); ("Z", (dzero, dzero, dzero))]
     [(4120, 1, (d_of_ratio false 2 1)); (4320, 1, (d_of_ratio false 2 1)); (4520, 1, (d_of_ratio false 2 1))]);
   ([ADec (mkDec "G" None None None None (Some "17") None None None); ADec (mkDec "G" None None None None (Some "91") None None None)],
    Said "2" dzero dzero dzero dzero true
     [("X", (dzero, dzero, dzero)); ("Y", (dzero, dzero, dzero)); ("Z", (dzero, dzero, dzero))]
     []);
   ([ADec (mkDec "G" None None None None (Some "91") None None None); ADec (mkDec "X" None None None None (Some "162") (Some "."%char) (Some "453") None); ADec (mkDec "Y" None None None None (Some "112") (Some "."%char) (Some "453") None)],
    Said "2" dzero (d_of_ratio false 98788479108143 500000000000) (d_of_ratio false 98788479108143 500000000000) (d_of_ratio false 98788479108143 500000000000) true
     [("X", (dzero, (d_of_ratio false 162453 1000), (d_of_ratio false 162453 1000))); ("Y", (dzero, (d_of_ratio false 112453 1000), (d_of_ratio false 112453 1000))); ("Z", (dzero, dzero, dzero))]
     []);
   ([ADec (mkDec "Z" None None None None (Some "153") (Some "."%char) None None)],
    Said "2" dzero (d_of_ratio false 153 1) (d_of_ratio false 175288479108143 500000000000) (d_of_ratio false 175288479108143 500000000000) true
     [("X", (dzero, (d_of_ratio false 162453 1000), (d_of_ratio false 162453 1000))); ("Y", (dzero, (d_of_ratio false 112453 1000), (d_of_ratio false 112453 1000))); ("Z", (dzero, (d_of_ratio false 153 1), (d_of_ratio false 153 1)))]
     []);
   ([ADec (mkDec "G" None None None None (Some "94") None None None); ADec (mkDec "G" None None None None (Some "02") None None None); ADec (mkDec "X" None (Some "-"%char) None None (Some "12") (Some "."%char) (Some "453") None); ADec (mkDec "Y" None None None None (Some "37") (Some "."%char) (Some "547") None); ADec (mkDec "I" None None None None (Some "50") (Some "."%char) (Some "38") None); ADec (mkDec "J" None None None None (Some "37") (Some "."%char) (Some "547") None); ADec (mkDec "F" None None None None (Some "250") (Some "."%char) None None)],
    Said "2" (d_of_ratio false 25151590852427 625000000000) dzero (d_of_ratio false 977048758950423 2500000000000) (d_of_ratio false 977048758950423 2500000000000) true
     [("I", ((d_of_ratio false 2519 50), (d_of_ratio false 2519 50), (d_of_ratio false 2519 50))); ("J", ((d_of_ratio false 37547 1000), (d_of_ratio false 37547 1000), (d_of_ratio false 37547 1000))); ("X", (dzero, (d_of_ratio false 150 1), (d_of_ratio false 162453 1000))); ("Y", (dzero, (d_of_ratio false 150 1), (d_of_ratio false 150 1))); ("Z", (dzero, (d_of_ratio false 153 1), (d_of_ratio false 153 1)))]
     []);
   ([ADec (mkDec "X" None None None None (Some "0") (Some "."%char) None None); ADec (mkDec "Y" None None None None (Some "0") (Some "."%char) None None); ADec (mkDec "Z" None (Some "-"%char) None None (Some "5") (Some "."%char) None None); ADec (mkDec "I" None None None None (Some "50") (Some "."%char) None None); ADec (mkDec "J" None None None None (Some "0") (Some "."%char) (Some "0") None); ADec (mkDec "K" None (Some "-"%char) None None None (Some "."%char) (Some "796") None)],
    Said "2" (d_of_ratio false 63145230841609 200000000000) dzero (d_of_ratio false 3532728288941071 5000000000000) (d_of_ratio false 3532728288941071 5000000000000) true
     [("I", ((d_of_ratio false 50 1), (d_of_ratio false 50 1), (d_of_ratio false 2519 50))); ("J", (dzero, dzero, (d_of_ratio false 37547 1000))); ("K", ((d_of_ratio true 199 250), (d_of_ratio true 199 250), (d_of_ratio true 199 250))); ("X", (dzero, (d_of_ratio false 150 1), (d_of_ratio false 162453 1000))); ("Y", (dzero, (d_of_ratio false 150 1), (d_of_ratio false 150 1))); ("Z", (dzero, (d_of_ratio false 148 1), (d_of_ratio false 153 1)))]
     []);
   ([ADec (mkDec "Z" None (Some "-"%char) None None (Some "5") (Some "."%char) None None)],
    Said "2" (d_of_ratio false 63145230841609 200000000000) dzero (d_of_ratio false 319459941248831 312500000000) (d_of_ratio false 319459941248831 312500000000) true
     [("I", ((d_of_ratio false 50 1), (d_of_ratio false 50 1), (d_of_ratio false 2519 50))); ("J", (dzero, dzero, (d_of_ratio false 37547 1000))); ("K", ((d_of_ratio true 199 250), (d_of_ratio true 199 250), (d_of_ratio true 199 250))); ("X", (dzero, (d_of_ratio false 150 1), (d_of_ratio false 162453 1000))); ("Y", (dzero, (d_of_ratio false 150 1), (d_of_ratio false 150 1))); ("Z", (dzero, (d_of_ratio false 143 1), (d_of_ratio false 153 1)))]
     []);
   ([ADec (mkDec "X" None None None None (Some "90") (Some "."%char) (Some "451") None); ADec (mkDec "Y" None (Some "-"%char) None None (Some "29") (Some "."%char) (Some "389") None); ADec (mkDec "Z" None (Some "-"%char) None None (Some "43") (Some "."%char) None None); ADec (mkDec "I" None None None None (Some "50") (Some "."%char) None None); ADec (mkDec "J" None None None None (Some "0") (Some "."%char) (Some "0") None); ADec (mkDec "K" None (Some "-"%char) None None None (Some "."%char) (Some "796") None)],
    Said "2" (d_of_ratio false 207178448542163 1000000000000) dzero (d_of_ratio false 6147251302692111 5000000000000) (d_of_ratio false 6147251302692111 5000000000000) true
     [("I", ((d_of_ratio false 50 1), (d_of_ratio false 50 1), (d_of_ratio false 2519 50))); ("J", (dzero, dzero, (d_of_ratio false 37547 1000))); ("K", ((d_of_ratio true 199 250), (d_of_ratio true 199 250), (d_of_ratio true 199 250))); ("X", (dzero, (d_of_ratio false 240451 1000), (d_of_ratio false 240451 1000))); ("Y", (dzero, (d_of_ratio false 120611 1000), (d_of_ratio false 150 1))); ("Z", (dzero, (d_of_ratio false 100 1), (d_of_ratio false 153 1)))]
     [])].
Proof. vm_compute. reflexivity. Qed.

(** Helix_4x90_arc_G91_incremental_programming *)
Example apc_Helix_4x90_arc_G91_incremental_programming : all_agree
  [([ADec (mkDec "T" None None None None (Some "2") None None None); ADec (mkDec "M" None None None None (Some "6") None None None)],
    Said "2" dzero dzero dzero dzero true
     [("X", (dzero, dzero, dzero)); ("Y", (dzero, dzero, dzero)); ("Z", (dzero, dzero, dzero))]
     [(4120, 1, (d_of_ratio false 2 1)); (4320, 1, (d_of_ratio false 2 1)); (4520, 1, (d_of_ratio false 2 1))]);
   ([ADec (mkDec "G" None None None None (Some "17") None None None); ADec (mkDec "G" None None None None (Some "91") None None None)],
    Said "2" dzero dzero dzero dzero true
     [("X", (dzero, dzero, dzero)); ("Y", (dzero, dzero, dzero)); ("Z", (dzero, dzero, dzero))]
     []);
   ([ADec (mkDec "G" None None None None (Some "91") None None None); ADec (mkDec "X" None None None None (Some "162") (Some "."%char) (Some "453") None); ADec (mkDec "Y" None None None None (Some "112") (Some "."%char) (Some "453") None); ADec (mkDec "Z" None None None None (Some "160") (Some "."%char) None None)],
    Said "2" dzero (d_of_ratio false 127118698878253 500000000000) (d_of_ratio false 127118698878253 500000000000) (d_of_ratio false 127118698878253 500000000000) true
     [("X", (dzero, (d_of_ratio false 162453 1000), (d_of_ratio false 162453 1000))); ("Y", (dzero, (d_of_ratio false 112453 1000), (d_of_ratio false 112453 1000))); ("Z", (dzero, (d_of_ratio false 160 1), (d_of_ratio false 160 1)))]
     []);
   ([ADec (mkDec "Z" None (Some "-"%char) None None (Some "7") (Some "."%char) None None)],
    Said "2" dzero (d_of_ratio false 7 1) (d_of_ratio false 130618698878253 500000000000) (d_of_ratio false 130618698878253 500000000000) true
     [("X", (dzero, (d_of_ratio false 162453 1000), (d_of_ratio false 162453 1000))); ("Y", (dzero, (d_of_ratio false 112453 1000), (d_of_ratio false 112453 1000))); ("Z", (dzero, (d_of_ratio false 153 1), (d_of_ratio false 160 1)))]
     []);
   ([ADec (mkDec "G" None None None None (Some "02") None None None); ADec (mkDec "X" None (Some "-"%char) None None (Some "12") (Some "."%char) (Some "453") None); ADec (mkDec "Y" None None None None (Some "37") (Some "."%char) (Some "547") None); ADec (mkDec "I" None None None None (Some "50") (Some "."%char) (Some "38") None); ADec (mkDec "J" None None None None (Some "37") (Some "."%char) (Some "547") None); ADec (mkDec "F" None None None None (Some "250") (Some "."%char) None None)],
    Said "2" (d_of_ratio false 25151590852427 625000000000) dzero (d_of_ratio false 753699857800973 2500000000000) (d_of_ratio false 753699857800973 2500000000000) true
     [("I", ((d_of_ratio false 2519 50), (d_of_ratio false 2519 50), (d_of_ratio false 2519 50))); ("J", ((d_of_ratio false 37547 1000), (d_of_ratio false 37547 1000), (d_of_ratio false 37547 1000))); ("X", (dzero, (d_of_ratio false 150 1), (d_of_ratio false 162453 1000))); ("Y", (dzero, (d_of_ratio false 150 1), (d_of_ratio false 150 1))); ("Z", (dzero, (d_of_ratio false 153 1), (d_of_ratio false 160 1)))]
     []);
   ([ADec (mkDec "X" None None None None (Some "50") (Some "."%char) None None); ADec (mkDec "Y" None None None None (Some "50") (Some "."%char) None None); ADec (mkDec "Z" None (Some "-"%char) None None (Some "1") (Some "."%char) (Some "25") None); ADec (mkDec "I" None None None None (Some "50") (Some "."%char) None None); ADec (mkDec "J" None None None None (Some "0") (Some "."%char) (Some "0") None); ADec (mkDec "K" None (Some "-"%char) None None None (Some "."%char) (Some "796") None)],
    Said "2" (d_of_ratio false 394657692760057 5000000000000) dzero (d_of_ratio false 1902057408362003 5000000000000) (d_of_ratio false 1902057408362003 5000000000000) true
     [("I", ((d_of_ratio false 50 1), (d_of_ratio false 50 1), (d_of_ratio false 2519 50))); ("J", (dzero, dzero, (d_of_ratio false 37547 1000))); ("K", ((d_of_ratio true 199 250), (d_of_ratio true 199 250), (d_of_ratio true 199 250))); ("X", (dzero, (d_of_ratio false 200 1), (d_of_ratio false 200 1))); ("Y", (dzero, (d_of_ratio false 200 1), (d_of_ratio false 200 1))); ("Z", (dzero, (d_of_ratio false 607 4), (d_of_ratio false 160 1)))]
     []);
   ([ADec (mkDec "X" None None None None (Some "50") (Some "."%char) None None); ADec (mkDec "Y" None (Some "-"%char) None None (Some "50") (Some "."%char) None None); ADec (mkDec "Z" None (Some "-"%char) None None (Some "1") (Some "."%char) (Some "25") None); ADec (mkDec "I" None None None None (Some "0") (Some "."%char) (Some "0") None); ADec (mkDec "J" None (Some "-"%char) None None (Some "50") (Some "."%char) None None)],
    Said "2" (d_of_ratio false 394657692760057 5000000000000) dzero (d_of_ratio false 114835755056103 250000000000) (d_of_ratio false 114835755056103 250000000000) true
     [("I", (dzero, dzero, (d_of_ratio false 2519 50))); ("J", ((d_of_ratio true 50 1), (d_of_ratio true 50 1), (d_of_ratio false 37547 1000))); ("K", ((d_of_ratio true 199 250), (d_of_ratio true 199 250), (d_of_ratio true 199 250))); ("X", (dzero, (d_of_ratio false 250 1), (d_of_ratio false 250 1))); ("Y", (dzero, (d_of_ratio false 150 1), (d_of_ratio false 200 1))); ("Z", (dzero, (d_of_ratio false 301 2), (d_of_ratio false 160 1)))]
     []);
   ([ADec (mkDec "X" None (Some "-"%char) None None (Some "50") (Some "."%char) None None); ADec (mkDec "Y" None (Some "-"%char) None None (Some "50") (Some "."%char) None None); ADec (mkDec "Z" None (Some "-"%char) None None (Some "1") (Some "."%char) (Some "25") None); ADec (mkDec "I" None (Some "-"%char) None None (Some "50") (Some "."%char) None None); ADec (mkDec "J" None None None None (Some "0") (Some "."%char) (Some "0") None)],
    Said "2" (d_of_ratio false 394657692760057 5000000000000) dzero (d_of_ratio false 2691372793882117 5000000000000) (d_of_ratio false 2691372793882117 5000000000000) true
     [("I", ((d_of_ratio true 50 1), (d_of_ratio true 50 1), (d_of_ratio false 2519 50))); ("J", ((d_of_ratio true 50 1), dzero, (d_of_ratio false 37547 1000))); ("K", ((d_of_ratio true 199 250), (d_of_ratio true 199 250), (d_of_ratio true 199 250))); ("X", (dzero, (d_of_ratio false 200 1), (d_of_ratio false 250 1))); ("Y", (dzero, (d_of_ratio false 100 1), (d_of_ratio false 200 1))); ("Z", (dzero, (d_of_ratio false 597 4), (d_of_ratio false 160 1)))]
     []);
   ([ADec (mkDec "X" None (Some "-"%char) None None (Some "50") (Some "."%char) None None); ADec (mkDec "Y" None None None None (Some "50") (Some "."%char) None None); ADec (mkDec "Z" None (Some "-"%char) None None (Some "1") (Some "."%char) (Some "25") None); ADec (mkDec "I" None None None None (Some "0") (Some "."%char) (Some "0") None); ADec (mkDec "J" None None None None (Some "50") (Some "."%char) None None)],
    Said "2" (d_of_ratio false 394657692760057 5000000000000) dzero (d_of_ratio false 1543015243321087 2500000000000) (d_of_ratio false 1543015243321087 2500000000000) true
     [("I", ((d_of_ratio true 50 1), dzero, (d_of_ratio false 2519 50))); ("J", ((d_of_ratio true 50 1), (d_of_ratio false 50 1), (d_of_ratio false 50 1))); ("K", ((d_of_ratio true 199 250), (d_of_ratio true 199 250), (d_of_ratio true 199 250))); ("X", (dzero, (d_of_ratio false 150 1), (d_of_ratio false 250 1))); ("Y", (dzero, (d_of_ratio false 150 1), (d_of_ratio false 200 1))); ("Z", (dzero, (d_of_ratio false 148 1), (d_of_ratio false 160 1)))]
     []);
   ([ADec (mkDec "X" None None None None (Some "50") (Some "."%char) None None); ADec (mkDec "Y" None None None None (Some "50") (Some "."%char) None None); ADec (mkDec "Z" None (Some "-"%char) None None (Some "1") (Some "."%char) (Some "25") None); ADec (mkDec "I" None None None None (Some "50") (Some "."%char) None None); ADec (mkDec "J" None None None None (Some "0") (Some "."%char) (Some "0") None)],
    Said "2" (d_of_ratio false 394657692760057 5000000000000) dzero (d_of_ratio false 3480688179402231 5000000000000) (d_of_ratio false 3480688179402231 5000000000000) true
     [("I", ((d_of_ratio true 50 1), (d_of_ratio false 50 1), (d_of_ratio false 2519 50))); ("J", ((d_of_ratio true 50 1), dzero, (d_of_ratio false 50 1))); ("K", ((d_of_ratio true 199 250), (d_of_ratio true 199 250), (d_of_ratio true 199 250))); ("X", (dzero, (d_of_ratio false 200 1), (d_of_ratio false 250 1))); ("Y", (dzero, (d_of_ratio false 200 1), (d_of_ratio false 200 1))); ("Z", (dzero, (d_of_ratio false 587 4), (d_of_ratio false 160 1)))]
     []);
   ([ADec (mkDec "X" None None None None (Some "50") (Some "."%char) None None); ADec (mkDec "Y" None (Some "-"%char) None None (Some "50") (Some "."%char) None None); ADec (mkDec "Z" None (Some "-"%char) None None (Some "1") (Some "."%char) (Some "25") None); ADec (mkDec "I" None None None None (Some "0") (Some "."%char) (Some "0") None); ADec (mkDec "J" None (Some "-"%char) None None (Some "50") (Some "."%char) None None)],
    Said "2" (d_of_ratio false 394657692760057 5000000000000) dzero (d_of_ratio false 242209117010143 312500000000) (d_of_ratio false 242209117010143 312500000000) true
     [("I", ((d_of_ratio true 50 1), dzero, (d_of_ratio false 2519 50))); ("J", ((d_of_ratio true 50 1), (d_of_ratio true 50 1), (d_of_ratio false 50 1))); ("K", ((d_of_ratio true 199 250), (d_of_ratio true 199 250), (d_of_ratio true 199 250))); ("X", (dzero, (d_of_ratio false 250 1), (d_of_ratio false 250 1))); ("Y", (dzero, (d_of_ratio false 150 1), (d_of_ratio false 200 1))); ("Z", (dzero, (d_of_ratio false 291 2), (d_of_ratio false 160 1)))]
     []);
   ([ADec (mkDec "X" None (Some "-"%char) None None (Some "9") (Some "."%char) (Some "549") None); ADec (mkDec "Y" None (Some "-"%char) None None (Some "29") (Some "."%char) (Some "389") None); ADec (mkDec "Z" None (Some "-"%char) None None (Some "0") (Some "."%char) (Some "5") None); ADec (mkDec "I" None (Some "-"%char) None None (Some "50") (Some "."%char) None None); ADec (mkDec "J" None None None None (Some "0") (Some "."%char) (Some "0") None); ADec (mkDec "K" None (Some "-"%char) None None None (Some "."%char) (Some "796") None)],
    Said "2" (d_of_ratio false 157205246160323 2000000000000) dzero (d_of_ratio false 8536717975126191 10000000000000) (d_of_ratio false 8536717975126191 10000000000000) true
     [("I", ((d_of_ratio true 50 1), (d_of_ratio true 50 1), (d_of_ratio false 2519 50))); ("J", ((d_of_ratio true 50 1), dzero, (d_of_ratio false 50 1))); ("K", ((d_of_ratio true 199 250), (d_of_ratio true 199 250), (d_of_ratio true 199 250))); ("X", (dzero, (d_of_ratio false 240451 1000), (d_of_ratio false 250 1))); ("Y", (dzero, (d_of_ratio false 120611 1000), (d_of_ratio false 200 1))); ("Z", (dzero, (d_of_ratio false 145 1), (d_of_ratio false 160 1)))]
     []);
   ([ADec (mkDec "I" None (Some "-"%char) None None (Some "40") (Some "."%char) (Some "451") None); ADec (mkDec "J" None None None None (Some "29") (Some "."%char) (Some "389") None)],
    Said "2" (d_of_ratio false 314159059396097 1000000000000) dzero (d_of_ratio false 11678308569087161 10000000000000) (d_of_ratio false 11678308569087161 10000000000000) true
     [("I", ((d_of_ratio true 50 1), (d_of_ratio true 40451 1000), (d_of_ratio false 2519 50))); ("J", ((d_of_ratio true 50 1), (d_of_ratio false 29389 1000), (d_of_ratio false 50 1))); ("K", ((d_of_ratio true 199 250), (d_of_ratio true 199 250), (d_of_ratio true 199 250))); ("X", (dzero, (d_of_ratio false 240451 1000), (d_of_ratio false 250 1))); ("Y", (dzero, (d_of_ratio false 120611 1000), (d_of_ratio false 200 1))); ("Z", (dzero, (d_of_ratio false 145 1), (d_of_ratio false 160 1)))]
     [])].
Proof. vm_compute. reflexivity. Qed.
