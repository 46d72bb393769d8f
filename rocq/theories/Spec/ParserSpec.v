(** Vocabulary for the statements about parsing a line. *)
From Verif Require Import Model.Base Model.Attr Model.Double Model.Verifiers Model.Renumberer Model.Rotator Model.UnitConv Model.PathCalc Model.Parser Spec.PathSpec.

(** The caller passes an empty text and looks whether it is still empty. *)
Definition has_message (m : message) : bool :=
  match m with
  | MNone => false
  | MGrammar ms => match ms with [] => false | _ => true end
  | MExpect _ _ _ => true
  | MExn _ => true
  end.

(** No macro variable in the text of the line. *)
Definition no_macro (data : string) : Prop := contains "#" data = false.

(** The coordinate of the zero point for an axis; axes other than X, Y and Z
    have none. *)
Definition coordinate (zp : zero_point) (w : string) : option dbl :=
  if String.eqb w "X" then Some (zp_x zp)
  else if String.eqb w "Y" then Some (zp_y zp)
  else if String.eqb w "Z" then Some (zp_z zp)
  else None.

(** What is wanted of a machine point: the configured value less the zero point. *)
Definition point_wanted (zp : zero_point) (w : string) (configured used : option dbl) : Prop :=
  match configured, used with
  | Some v, Some u => u = match coordinate zp w with Some z => dsub v z | None => v end
  | None, None => True
  | _, _ => False
  end.

(** What is made of it: for X, Y and Z the zero point itself, 0 where the
    configured value is 1; for other axes 0, which is also what is configured. *)
Definition point_used (zp : zero_point) (w : string) (configured used : option dbl) : Prop :=
  match configured, used with
  | Some v, Some u =>
      match coordinate zp w with
      | Some z => (deqb (dsub v (d_of_Z 1)) dzero = true /\ u = dzero) \/ (deqb (dsub v (d_of_Z 1)) dzero = false /\ u = z)
      | None => deqb (dsub v (d_of_Z 0)) dzero = true /\ u = dzero
      end
  | None, None => True
  | _, _ => False
  end.

(** Where the axes are and which values they had, as reported. *)
Definition same_positions (c c' : calc) : Prop :=
  forall w, position w c' = position w c /\ extremes w c' = extremes w c.

(** Path and time, in total and for every tool, as reported. *)
Definition same_sums (c c' : calc) : Prop :=
  p_total (c_path c') = p_total (c_path c) /\ t_total (c_time c') = t_total (c_time c) /\
  forall t, assoc t (c_tpath c') = assoc t (c_tpath c) /\ assoc t (c_ttime c') = assoc t (c_ttime c).

(** The path calculation of the parser, where there is one, before and after. *)
Definition calculation (rel : calc -> calc -> Prop) (p p' : parser) : Prop :=
  match pr_calc p, pr_calc p' with
  | Some c, Some c' => rel (cl_calc c) (cl_calc c')
  | None, None => True
  | _, _ => False
  end.

(** The commands that edit a line. *)
Inductive edit : Type :=
| EConvert (dir : unit_dir)
| ERemoveNumbers
| ERenumber (rs : renumber_settings)
| ERotate (o : rot_option)
| ERemoveComments
| ERemoveOptional.

Definition edit_line (cf : config) (e : edit) : string -> parser -> parser * block * answer :=
  match e with
  | EConvert dir => convert_length cf dir
  | ERemoveNumbers => remove_numbering cf
  | ERenumber rs => renumber_line cf rs
  | ERotate o => rotate_line o
  | ERemoveComments => remove_comment_line
  | ERemoveOptional => remove_optional_line
  end.

(** Unit system, grammar, macros, path calculation, spindle check and zero point. *)
Definition analysis (p : parser) := (pr_metric p, pr_grammar p, pr_macros p, pr_calc p, pr_rot p, pr_zp p).
