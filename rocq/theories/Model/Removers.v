(** Comment and optional-block removal on parsed blocks.
    Source: parser/fanuc/AllAttributesParser.cpp 576-593 and 601-627. *)
From Verif Require Import Model.Base Model.Attr.

(** AllAttributesParser.cpp 581-590: erase every string word "(". *)
Fixpoint remove_comment (b : block) : block :=
  match b with
  | [] => []
  | AStr w v :: b' => if String.eqb w "(" then remove_comment b' else AStr w v :: remove_comment b'
  | a :: b' => a :: remove_comment b'
  end.

(** AllAttributesParser.cpp 613-624: erase leading "/" words that have a value,
    stop at the first other word. *)
Fixpoint remove_optional_block (b : block) : block :=
  match b with
  | ADec d :: b' =>
      if String.eqb (d_word d) "/" && is_some (d_value d)
      then remove_optional_block b' else b
  | _ => b
  end.
