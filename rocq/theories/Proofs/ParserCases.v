(** A parser with the shipped tables of the milling control, for examples. *)
From Verif Require Import Model.Base Model.Attr Model.Double Model.Macro Model.Grammar Model.Verifiers Model.PathGeom Model.PathCalc Model.Parser Model.Shipped.
From Verif Require Import Spec.GrammarSpec Spec.ParserSpec Proofs.PathCases Proofs.ShippedProofs.

Definition ex_cf : config := mkConfig (mkFG fanuc_mill_metric fanuc_mill_imperial) shipped_ops [] [] false.
Definition ex_kin : kinematics := mkKin [("X"%string, (d_of_Z (-500), d_of_Z 500))] (d_of_Z 10000) 8000 20.
Definition ex_lit (s : string) : dbl := match stod s with Ok d => d | Exc _ => dzero end.
Definition ex_id (x : dbl) : dbl := x.
Definition ex_parse : parser_settings -> Z -> string -> parser -> parser * block * answer :=
  parse ex_lit (fun _ => ex_id) ex_id ex_id ex_id 90 ex_cf.

(** With machine settings; with every check, with the path only, with none. *)
Definition ex_parser : parser := fst (set_ncsettings ex_cf (ex_mill true false) ex_kin (mkZP (d_of_Z 1) (d_of_Z 2) (d_of_Z 3)) (parser_new ex_cf false)).
Definition ex_all : parser_settings := mkPS true true true true true.
Definition ex_path : parser_settings := mkPS true true true false false.
Definition ex_none : parser_settings := mkPS false false false false false.

Definition ex_grammar : line_grammar := make_grammar (cf_grammar ex_cf) (cf_ops ex_cf) (metric (cf_grammar ex_cf)).

Lemma ex_grammar_ok : tables_ok (lg_map ex_grammar) (lg_decimal ex_grammar) (lg_assignable ex_grammar).
Proof. apply shipped_ok. vm_compute. tauto. Qed.

(** The parser after a line. *)
Definition ex_after (st : parser_settings) (line : Z) (data : string) (p : parser) : parser := fst (fst (ex_parse st line data p)).
