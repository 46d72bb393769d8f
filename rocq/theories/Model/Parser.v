(** The parser as a whole.
    Source: parser/fanuc/AllAttributesParser.h, AllAttributesParser.cpp.
    The texts of the messages are in Model/Messages.v. *)
From Verif Require Import Model.Base Model.Attr Model.Double Model.Macro Model.Grammar Model.MacroAssign Model.MacroEval.
From Verif Require Import Model.Verifiers Model.PathGeom Model.PathCalc Model.Renumberer Model.Rotator Model.Removers.
From Verif Require Import Model.UnitConv Model.Splitter.

(** GeneralParserDefines.h 87-94: ParserSettings. *)
Record parser_settings : Type := mkPS {
  ps_evaluate_macro : bool;
  ps_verify_code_groups : bool;
  ps_calculate_path : bool;
  ps_ncsettings : bool;
  ps_zero_point : bool
}.

(** What the constructor gets and never changes: AllAttributesParser.cpp 48-62.
    [cf_haas] stands for the parser types HaasLathe and HaasMill. *)
Record config : Type := mkConfig {
  cf_grammar : fanuc_grammar;
  cf_ops : list string;
  cf_gcodes : code_groups;
  cf_mcodes : code_groups;
  cf_haas : bool
}.

(** The path calculator with the settings it was made for; it owns the
    kinematics and the defaults of the control (AttributesPathCalculator.h 62-70). *)
Record calculator : Type := mkCalculator { cl_machine : machine; cl_kin : kinematics; cl_calc : calc }.

(** The members that change.  [pr_metric]: [active_word_grammar] points to the
    metric grammar.  [pr_grammar] and [pr_calc] are null until they are made. *)
Record parser : Type := mkParser {
  pr_metric : bool;
  pr_grammar : option line_grammar;
  pr_gs : gstate;
  pr_macros : macro_map dbl;
  pr_calc : option calculator;
  pr_rot : rot_state;
  pr_zp : zero_point;
  pr_ren : renumberer
}.

Definition with_gs x (p : parser) := mkParser (pr_metric p) (pr_grammar p) x (pr_macros p) (pr_calc p) (pr_rot p) (pr_zp p) (pr_ren p).
Definition with_metric x (p : parser) := mkParser x (pr_grammar p) (pr_gs p) (pr_macros p) (pr_calc p) (pr_rot p) (pr_zp p) (pr_ren p).
Definition with_macros x (p : parser) := mkParser (pr_metric p) (pr_grammar p) (pr_gs p) x (pr_calc p) (pr_rot p) (pr_zp p) (pr_ren p).
Definition with_calc x (p : parser) := mkParser (pr_metric p) (pr_grammar p) (pr_gs p) (pr_macros p) x (pr_rot p) (pr_zp p) (pr_ren p).
Definition with_rot x (p : parser) := mkParser (pr_metric p) (pr_grammar p) (pr_gs p) (pr_macros p) (pr_calc p) x (pr_zp p) (pr_ren p).
Definition with_ren x (p : parser) := mkParser (pr_metric p) (pr_grammar p) (pr_gs p) (pr_macros p) (pr_calc p) (pr_rot p) (pr_zp p) x.

(** ** What the caller sees *)

(** The text left in [message]: what the caller put there, the text of the
    grammar, the place of an expectation failure (the text in front of it and
    the rest) followed by the text of the grammar, or the text of an exception. *)
Inductive message : Type :=
| MNone
| MGrammar (m : messages)
| MExpect (before rest : string) (m : messages)
| MExn (e : exn).

(** [true]/[false] and the message, or an exception that leaves the parser. *)
Inductive answer : Type :=
| Answer (ret : bool) (m : message)
| Escapes (e : exn).

(** AllAttributesParser.cpp 287-326: the handlers of [parse].  There is none for
    [std::invalid_argument]; [file_splitter_exception] is not thrown here. *)
Definition caught (e : exn) : answer :=
  match e with
  | EInvalidArgument | EUB _ | EFileSplitter _ | EEval _ | EExpectation _ | EFilesystem _ => Escapes e
  | _ => Answer false (MExn e)
  end.

(** AllAttributesParser.cpp 358-366, 459-463, 558-562: only [std::out_of_range]. *)
Definition caught_range (e : exn) : answer :=
  match e with
  | EOutOfRange => Answer false (MExn e)
  | _ => Escapes e
  end.

Section Parser.
Variable lit : string -> dbl.
Variable libm : string -> dbl -> dbl.
Variables atan log cabs : dbl -> dbl.
Variable stale : Z.
Variable cf : config.

Definition active_map (p : parser) : word_map := if pr_metric p then metric (cf_grammar cf) else imperial (cf_grammar cf).

(** AllAttributesParser.cpp 48-70. *)
Definition parser_new (without_settings : bool) : parser :=
  mkParser true
    (if without_settings then Some (make_grammar (cf_grammar cf) (cf_ops cf) (metric (cf_grammar cf))) else None)
    gstate_init [] None rot_init (mkZP dzero dzero dzero) renumber_reset.

(** The constants M_PI and M_E. *)
Definition m_e : dbl := d_of_ratio false 271828182845904523536 (10 ^ 20).

(** AllAttributesParser.cpp 86-97. *)
Definition reset_macro_values (init : bool) (p : parser) : parser :=
  with_macros (if init then emplace (emplace [] (mkKey 3101 (-1)) m_pi) (mkKey 3102 (-1)) m_e else []) p.

(** AllAttributesParser.cpp 99-102: the pointer is used without a check. *)
Definition reset_path (p : parser) : parser * option exn :=
  match pr_calc p with
  | None => (p, Some (EUB "null path calculator"))
  | Some c => (with_calc (Some (mkCalculator (cl_machine c) (cl_kin c) (calc_reset (cl_machine c) (cl_calc c)))) p, None)
  end.

(** ** set_ncsettings *)

(** AllAttributesParser.cpp 145-149, 153-155:
    [it.second - map.count(axis) ? map.at(axis) : 0] is
    [(it.second - map.count(axis)) ? map.at(axis) : 0]. *)
Definition point_value (zp : zero_point) (e : string * dbl) : res (string * dbl) :=
  let '(w, v) := e in
  let count := dz (if is_some (zp_offset zp w) then 1 else 0) in
  if deqb (dsub v count) dzero then Ok (w, dzero)
  else match zp_offset zp w with
       | Some z => Ok (w, z)
       | None => Exc EOutOfRange
       end.

Fixpoint point_values (zp : zero_point) (m : dmap) : res dmap :=
  match m with
  | [] => Ok []
  | e :: m' => do e' <- point_value zp e; do r <- point_values zp m'; Ok (e' :: r)
  end.

Definition with_points (ex base : dmap) (mc : machine) : machine :=
  mkMachine (mc_no_y mc) (mc_type mc) ex base (mc_axes mc) (mc_fast_feed mc) (mc_exchange_time mc) (mc_pallet_time mc)
    (mc_measure_time mc) (mc_diameter_2x mc) (mc_auto_measure mc) (mc_pallet_code mc) (mc_pallet_value mc)
    (mc_measure_code mc) (mc_measure_value mc) (mc_cnc mc).

(** AllAttributesParser.cpp 131-163.  [mc] holds the points as configured.  The
    members set before an exception stay set. *)
Definition set_ncsettings (mc : machine) (kin : kinematics) (zp : zero_point) (p : parser) : parser * option exn :=
  let unit := negb (cd_inch (mc_cnc mc)) in
  let p := mkParser unit (pr_grammar p) (pr_gs p) (pr_macros p) (pr_calc p) (pr_rot p) zp (pr_ren p) in
  match point_values zp (mc_exchange_point mc) with
  | Exc e => (p, Some e)
  | Ok ex =>
      match point_values zp (mc_base_point mc) with
      | Exc e => (p, Some e)
      | Ok base =>
          let mc' := with_points ex base mc in
          (mkParser unit (Some (make_grammar (cf_grammar cf) (cf_ops cf) (active_map p))) gstate_init (pr_macros p)
                    (Some (mkCalculator mc' kin (calc_new mc'))) (pr_rot p) zp (pr_ren p), None)
      end
  end.

(** ** parse: AllAttributesParser.cpp 203-331 *)

(** A step goes on ([None]) or ends the call. *)
Definition step : Type := parser -> parser * option answer.

Definition andthen (a b : step) : step :=
  fun p => match a p with (p', None) => b p' | r => r end.

Definition skip_step : step := fun p => (p, None).

Definition check {A} (r : parser -> res A) : step :=
  fun p => (p, match r p with Ok _ => None | Exc e => Some (caught e) end).

Definition on (b : bool) (s : step) : step := if b then s else skip_step.

(** 246: SystemMacroAssigner. *)
Definition system_step (line : Z) (b : block) : step := fun p =>
  let '(mv, r) := system_assign (pr_macros p) line b in
  (with_macros mv p, match r with None => None | Some e => Some (caught e) end).

(** 248-255: the pointer is used without a check. *)
Definition settings_step (b : block) : step := fun p =>
  match pr_calc p with
  | None => (p, Some (Escapes (EUB "null path calculator")))
  | Some c =>
      match range_verifier (mc_type (cl_machine c)) (cl_kin c) b with
      | Exc e => (p, Some (caught e))
      | Ok _ =>
          let '(st, r) := rotation_verifier (cd_operator_rotation (mc_cnc (cl_machine c))) (pr_rot p) b in
          (with_rot st p, match r with None => None | Some e => Some (caught e) end)
      end
  end.

(** 264-273. *)
Definition path_step (zero : bool) (line : Z) (b : block) : step := fun p =>
  match pr_calc p with
  | None => (p, None)
  | Some c =>
      let '(cl, mv, r) := evaluate atan log cabs stale (cl_machine c) (negb (pr_metric p)) line b (cl_calc c) (pr_macros p) in
      let p' := with_macros mv (with_calc (Some (mkCalculator (cl_machine c) (cl_kin c) cl)) p) in
      match r with
      | Some e => (p', Some (caught e))
      | None => if zero
                then (p', match axis_verifier (cl_kin c) (pr_zp p) (c_range cl) with
                          | Ok _ => None
                          | Exc e => Some (caught e)
                          end)
                else (p', None)
      end
  end.

(** 241, 275: GrammarSelector.  Within a block the pointer is set word by word,
    so a word that throws leaves what the words before it set. *)
Fixpoint select_grammar (b : block) : step := fun p =>
  match b with
  | [] => (p, None)
  | a :: b' =>
      match selector_step (pr_metric p) a with
      | Exc e => (p, Some (caught e))
      | Ok m => select_grammar b' (with_metric m p)
      end
  end.

(** 246-275, on the words [b] that are in force. *)
Definition later_steps (st : parser_settings) (line : Z) (b : block) : step :=
  andthen (system_step line b)
  (andthen (on (ps_ncsettings st) (settings_step b))
  (andthen (on (ps_verify_code_groups st)
               (check (fun p => code_groups_verifier (pr_macros p) (cf_gcodes cf) (cf_mcodes cf) line false b)))
  (andthen (on (cf_haas cf) (check (fun _ => same_word "M" b)))
  (andthen (on (ps_calculate_path st) (path_step (ps_zero_point st) line b))
           (select_grammar b))))).

(** 225-229.  The message of MacroEvaluator is overwritten by the one of the
    grammar. *)
Definition macro_step (line : Z) (v : block) : step := fun p =>
  match macro_evaluate lit libm (pr_macros p) line v with
  | Exc e => (p, Some (caught e))
  | Ok (mv, None) => (with_macros mv p, None)
  | Ok (mv, Some _) => (with_macros mv p, Some (Answer false (MGrammar (gs_message (pr_gs p)))))
  end.

(** The part of [data] that ends where [rest] begins. *)
Definition text_before (data rest : string) : string :=
  String.substring 0 (String.length data - String.length rest) data.

(** 276-286: [ret] is what the last complete reading returned. *)
Definition expectation (ret : bool) (data rest : string) (p : parser) : answer :=
  Answer ret (MExpect (text_before data rest) rest (gs_message (pr_gs p))).

(** 231-275 and 330.  The second reading does not clear the message. *)
Definition macro_steps (st : parser_settings) (line : Z) (v : block) (ret : bool) (p : parser) : parser * answer :=
  let finish (ret : bool) (r : parser * option answer) :=
    match r with
    | (p', None) => (p', Answer ret MNone)
    | (p', Some a) => (p', a)
    end in
  match evaluated_code (cf_ops cf) (pr_macros p) line v with
  | Exc e => (p, caught e)
  | Ok EmptyString => finish ret (later_steps st line v p)
  | Ok t =>
      match pr_grammar p with
      | None => (p, Escapes (EUB "null grammar"))
      | Some lg =>
          let '(gs, v2, r) := phrase_parse (lg_map lg) (lg_decimal lg) (lg_assignable lg) t (pr_gs p) in
          let p := with_gs gs p in
          match r with
          | PThrow rest => (p, expectation ret t rest p)
          | PExc e => (p, caught e)
          | PTrue => finish true (andthen (select_grammar v2) (later_steps st line v2) p)
          | PFalse => finish false (andthen (select_grammar v2) (later_steps st line v2) p)
          end
      end
  end.

(** 216-275, after the first reading. *)
Definition steps (st : parser_settings) (line : Z) (v : block) (ret : bool) (p : parser) : parser * answer :=
  match unique_code (active_map p) v with
  | Exc e => (p, caught e)
  | Ok _ =>
      if negb (ps_evaluate_macro st) then (p, Answer ret (MGrammar (gs_message (pr_gs p))))
      else match macro_step line v p with
           | (p', Some a) => (p', a)
           | (p', None) => macro_steps st line v ret p'
           end
  end.

(** The parser afterwards, [value], and what the caller sees. *)
Definition parse (st : parser_settings) (line : Z) (data : string) (p : parser) : parser * block * answer :=
  match pr_grammar p with
  | None => (p, [], Escapes (EUB "null grammar"))
  | Some lg =>
      let '(gs, v, r) := grammar_parse lg data (pr_gs p) in
      let p := with_gs gs p in
      match r with
      | PThrow rest => (p, v, expectation false data rest p)
      | PExc e => (p, v, caught e)
      | PTrue => let '(p', a) := steps st line v true p in (p', v, a)
      | PFalse => let '(p', a) := steps st line v false p in (p', v, a)
      end
  end.

(** ** simple_parse and its users *)

(** AllAttributesParser.cpp 339-369. *)
Definition simple_parse (data : string) (p : parser) : parser * block * answer :=
  match pr_grammar p with
  | None => (p, [], Escapes (EUB "null grammar"))
  | Some lg =>
      let '(gs, v, r) := grammar_parse lg data (pr_gs p) in
      let p := with_gs gs p in
      match r with
      | PThrow rest => (p, v, expectation false data rest p)
      | PExc e => (p, v, caught_range e)
      | PTrue => (p, v, Answer true MNone)
      | PFalse => (p, v, Answer false MNone)
      end
  end.

(** AllAttributesParser.cpp 391-411; UnitConverter is called outside of any
    [try]. *)
Definition convert_length (dir : unit_dir) (data : string) (p : parser) : parser * block * answer :=
  match simple_parse data p with
  | (p', v, Answer true m) =>
      match unit_convert dir (cf_grammar cf) v with
      | Ok v' => (p', v', Answer true m)
      | Exc e => (p', v, Escapes e)
      end
  | r => r
  end.

(** AllAttributesParser.cpp 413-427. *)
Definition remove_numbering (data : string) (p : parser) : parser * block * answer :=
  match simple_parse data p with
  | (p', v, Answer r m) => (p', remove_number (numbering_words (metric (cf_grammar cf))) v, Answer r m)
  | r => r
  end.

(** AllAttributesParser.cpp 429-447. *)
Definition renumber_line (rs : renumber_settings) (data : string) (p : parser) : parser * block * answer :=
  match simple_parse data p with
  | (p', v, Answer r m) =>
      let '(ren, v') := renumber (numbering_words (metric (cf_grammar cf))) (pr_ren p') rs v in
      (with_ren ren p', v', Answer r m)
  | r => r
  end.

(** AllAttributesParser.cpp 449-470. *)
Definition rotate_line (o : rot_option) (data : string) (p : parser) : parser * block * answer :=
  match simple_parse data p with
  | (p', v, Answer r m) => (p', rotate_block o v, Answer r m)
  | r => r
  end.

(** AllAttributesParser.cpp 570-593 and 595-628. *)
Definition remove_comment_line (data : string) (p : parser) : parser * block * answer :=
  match simple_parse data p with
  | (p', v, Answer r m) => (p', remove_comment v, Answer r m)
  | r => r
  end.

Definition remove_optional_line (data : string) (p : parser) : parser * block * answer :=
  match simple_parse data p with
  | (p', v, Answer r m) => (p', remove_optional_block v, Answer r m)
  | r => r
  end.

(** ** split_file: AllAttributesParser.cpp 472-568 *)

Inductive split_type : Type := STBlocks | STTool | STTime | STPath | STText.

(** GeneralParserDefines.h 334-343. *)
Record file_splitting : Type := mkSplit {
  sp_type : split_type;
  sp_step : Z;
  sp_time : Z;
  sp_path : Z;
  sp_text : string;
  sp_rapid_only : bool;
  sp_plane : string
}.

Definition split_result : Type := parser * list (list block) * answer.

(** An assignment to [message] replaces the text, no assignment keeps it. *)
Definition later (m m' : message) : message := match m' with MNone => m | _ => m' end.

(** 483-492: the lines of the pieces are read one by one; what [renumber]
    returns is not looked at, the last message stays.  The places of the lines
    are made first: what an exception leaves out is empty. *)
Fixpoint renumber_lines (rs : renumber_settings) (l : list string) (m : message) (p : parser)
  : parser * list block * message * option exn :=
  match l with
  | [] => (p, [], m, None)
  | t :: l' =>
      match renumber_line rs t p with
      | (p', v, Escapes e) => (p', v :: repeat [] (List.length l'), m, Some e)
      | (p', v, Answer _ m') =>
          let '(p'', vs, m'', e) := renumber_lines rs l' (later m m') p' in
          (p'', v :: vs, m'', e)
      end
  end.

Fixpoint renumber_pieces (rs : renumber_settings) (l : list (list string)) (m : message) (p : parser) : split_result :=
  match l with
  | [] => (p, [], Answer true m)
  | t :: l' =>
      match renumber_lines rs t m p with
      | (p', vs, m', Some e) => (p', vs :: repeat [] (List.length l'), caught_range e)
      | (p', vs, m', None) => let '(p'', r, a) := renumber_pieces rs l' m' p' in (p'', vs :: r, a)
      end
  end.

(** 499-512, 539-546: the lines are read until one is rejected; blank lines
    become empty blocks.  [read] reads a line, [report] is what is recorded
    after each line. *)
Definition is_blank_line (t : string) : bool := all_chars is_space t.

Fixpoint read_lines {A} (read : Z -> string -> parser -> parser * block * answer) (report : parser -> A)
  (x : Z) (data : list string) (m : message) (p : parser) : parser * list (block * A) * message * option answer :=
  match data with
  | [] => (p, [], m, None)
  | t :: data' =>
      let '(p1, v, a) := if is_blank_line t then (p, [], Answer true MNone) else read x t p in
      match a with
      | Answer true m1 =>
          let '(p2, r, m2, e) := read_lines read report (x + 1) data' (later m m1) p1 in (p2, (v, report p1) :: r, m2, e)
      | Answer false m1 => (p1, [], m, Some (Answer false (later m m1)))
      | Escapes e => (p1, [], m, Some a)
      end
  end.

Definition split_settings : parser_settings := mkPS true false true false false.

(** 514-519, 548-553. *)
Definition read_plane (plane : string) (p : parser) : parser * option block * option answer :=
  match plane with
  | EmptyString => (p, None, None)
  | _ => match simple_parse plane p with
         | (p', v, Answer true _) => (p', Some v, None)
         | (p', v, a) => (p', None, Some a)
         end
  end.

Definition split_defaults_of (cd : cnc_defaults) : split_defaults :=
  mkSD (cd_tool_executes cd) (cd_rapid_cancels cd) (cd_linear_cancels cd).

(** 527-530, 557-560. *)
Definition renumber_all (rs : renumber_settings) (ps : list (list block)) (p : parser) : parser * list (list block) :=
  fold_left (fun '(p, acc) piece =>
    let '(ren, piece') := renumber_program (numbering_words (metric (cf_grammar cf))) (pr_ren p) rs piece in
    (with_ren ren p, (acc ++ [piece'])%list)) ps (p, []).

Definition split_blocks_of (fs : file_splitting) (sd : split_defaults) (rp : option block) (b : list (block * (dbl * dbl)))
  : res (list (list block)) :=
  match sp_type fs with
  | STBlocks => split_blocks sd (sp_rapid_only fs) (sp_step fs) rp (map fst b)
  | STTool => split_tool sd rp (map fst b)
  | STTime => split_amount sd (sp_rapid_only fs) (sp_time fs) rp (map fst b) (map (fun x => snd (snd x)) b)
  | STPath => split_amount sd (sp_rapid_only fs) (sp_path fs) rp (map fst b) (map (fun x => fst (snd x)) b)
  | STText => Ok []
  end.

(** The work motion and the work time reported for the last block. *)
Definition work_report (p : parser) : dbl * dbl :=
  match pr_calc p with
  | Some c => (p_work (c_path (cl_calc c)), t_work (c_time (cl_calc c)))
  | None => (dzero, dzero)
  end.

(** [attr_path_calc] is used without a check (507-509, 522, 555); here a null
    pointer is noticed at once.  What a call that fails has put into [value] is
    not modelled, except for splitting at a text. *)
Definition split_file (fs : file_splitting) (data : list string) (p : parser) : split_result :=
  match sp_type fs with
  | STText =>
      renumber_pieces (mkRS "N" 1 1 99999 false false)
        (split_text (sp_text fs) (match sp_plane fs with EmptyString => None | t => Some t end) data) MNone p
  | ty =>
      match pr_calc p with
      | None => (p, [], Escapes (EUB "null path calculator"))
      | Some c =>
          let read x t p := match ty with
                            | STTime | STPath => parse split_settings x t p
                            | _ => simple_parse t p
                            end in
          match read_lines read work_report 0 data MNone p with
          | (p, _, _, Some (Answer _ m)) => (p, [], Answer false m)
          | (p, _, _, Some (Escapes e)) => (p, [], caught_range e)
          | (p, bs, m, None) =>
              match read_plane (sp_plane fs) p with
              | (p, _, Some (Answer _ m')) => (p, [], Answer false (later m m'))
              | (p, _, Some (Escapes e)) => (p, [], caught_range e)
              | (p, rp, None) =>
                  match split_blocks_of fs (split_defaults_of (mc_cnc (cl_machine c))) rp bs with
                  | Exc e => (p, [], caught_range e)
                  | Ok ps => let '(p, ps) := renumber_all (mkRS "N" 1 0 0 false false) ps p in (p, ps, Answer true m)
                  end
              end
          end
      end
  end.

End Parser.
