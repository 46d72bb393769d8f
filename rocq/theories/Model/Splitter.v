(** File splitting.  Source: parser/fanuc/FileSplitter.cpp. *)
From Verif Require Import Model.Base Model.Attr Model.Double.

(** The CncDefaultValues fields FileSplitter reads. *)
Record split_defaults : Type := mkSD {
  sd_tool_number_executes_exchange : bool;
  sd_rapid_traverse_cancel_cycle : bool;
  sd_linear_interpolation_cancel_cycle : bool
}.

(** AttributesPathCalculator.cpp 19-36. *)
Definition is_drill_cycle (n : Z) : bool := existsb (Z.eqb n) [74; 81; 82; 84; 85; 86; 88; 89].
Definition is_drill_cycle_qparam (n : Z) : bool := existsb (Z.eqb n) [73; 76; 83; 87].

(** FileSplitter.cpp 125-131.  [other_g] (126) is written but never read and is
    omitted.  [tool_change_cnt] is an int; the model counts without bound. *)
Record fs_state : Type := mkFS {
  fs_active_g : Z;
  fs_was_comment : bool;
  fs_drill : bool;
  fs_tool_change : bool;
  fs_tool_cnt : Z
}.

Definition fs_init : fs_state := mkFS (-1) false false false 0.

(** FileSplitter.cpp 95-102. *)
Definition fs_reset (s : fs_state) : fs_state :=
  mkFS (if 3 <? fs_active_g s then -1 else fs_active_g s) false (fs_drill s) false (fs_tool_cnt s).

(** FileSplitter.cpp 28-89. *)
Definition fs_visit (sd : split_defaults) (s : fs_state) (a : attr) : res fs_state :=
  match a with
  | ADec d =>
      if String.eqb (d_word d) "/" then
        Ok (mkFS (fs_active_g s) true (fs_drill s) (fs_tool_change s) (fs_tool_cnt s))
      else if fs_was_comment s then Ok s
      else
        match d_value d with
        | None => Ok s
        | Some v =>
            if String.eqb (d_word d) "G" then
              do n <- stoi v;
              if (0 <=? n) && (n <=? 3) then
                Ok (mkFS n (fs_was_comment s) (fs_drill s) (fs_tool_change s) (fs_tool_cnt s))
              else if is_drill_cycle n || is_drill_cycle_qparam n then
                Ok (mkFS n (fs_was_comment s) true (fs_tool_change s) (fs_tool_cnt s))
              else if (n =? 80) || ((fs_active_g s =? 0) && sd_rapid_traverse_cancel_cycle sd)
                      || ((fs_active_g s =? 1) && sd_linear_interpolation_cancel_cycle sd) then
                Ok (mkFS n (fs_was_comment s) false (fs_tool_change s) (fs_tool_cnt s))
              else Ok s
            else if String.eqb (d_word d) "M" then
              if is_some (d_dot d) || is_some (d_value2 d) then Ok s
              else if negb (sd_tool_number_executes_exchange sd) then
                do n <- stoi v;
                if n =? 6 then
                  Ok (mkFS (fs_active_g s) (fs_was_comment s) (fs_drill s) true (fs_tool_cnt s + 1))
                else Ok s
              else Ok s
            else if String.eqb (d_word d) "T" then
              if is_some (d_dot d) || is_some (d_value2 d) then Ok s
              else if sd_tool_number_executes_exchange sd then
                Ok (mkFS (fs_active_g s) (fs_was_comment s) (fs_drill s) true (fs_tool_cnt s + 1))
              else Ok s
            else Ok s
        end
  | _ => Ok s
  end.

(** FileSplitter.cpp 181-183 and its copies. *)
Definition fs_block (sd : split_defaults) (s : fs_state) (b : block) : res fs_state :=
  foldM (fs_visit sd) (fs_reset s) b.

(** FileSplitter.cpp 109-112. *)
Definition one_block_after_start (s : fs_state) : bool :=
  ((fs_active_g s =? -1) && fs_drill s) || (fs_active_g s =? 80).

(** Pieces are accumulated newest first; [rev_pieces] restores the order. *)
Section Pieces.
Variable A : Type.

(** [value.back().emplace_back(x)] *)
Definition push_back (ps : list (list A)) (x : A) : list (list A) :=
  match ps with
  | [] => [[x]]
  | p :: ps' => (p ++ [x])%list :: ps'
  end.

(** FileSplitter.cpp 145-150, 193-198, 224-229, ...: close the current piece
    with the retraction plane, open a new one with the retraction plane and
    the block. *)
Definition open_piece (rp : option A) (ps : list (list A)) (x : A) : list (list A) :=
  match rp with
  | Some r => [r; x] :: push_back ps r
  | None => [x] :: ps
  end.

End Pieces.
Arguments push_back {A}.
Arguments open_piece {A}.

(** FileSplitter.cpp 134-155: split at lines containing the text. *)
Fixpoint split_text_acc (text : string) (rp : option string) (ps : list (list string))
  (data : list string) : list (list string) :=
  match data with
  | [] => rev ps
  | x :: data' =>
      if contains text x
      then split_text_acc text rp (open_piece rp ps x) data'
      else split_text_acc text rp (push_back ps x) data'
  end.

(** [rp] is None when [file_splitting.retraction_plane.empty()]. *)
Definition split_text (text : string) (rp : option string) (data : list string) : list (list string) :=
  split_text_acc text rp [[]] data.

(** FileSplitter.cpp 168-203. *)
Fixpoint split_blocks_acc (sd : split_defaults) (rapid_only : bool) (step : Z) (rp : option block)
  (ps : list (list block)) (s : fs_state) (cnt : Z) (data : list block) : res (list (list block)) :=
  match data with
  | [] => Ok (rev ps)
  | x :: data' =>
      do s' <- fs_block sd s x;
      if (cnt <? step) || one_block_after_start s' || (rapid_only && negb (fs_active_g s' =? 0))
      then split_blocks_acc sd rapid_only step rp (push_back ps x) s' (cnt + 1) data'
      else split_blocks_acc sd rapid_only step rp (open_piece rp ps x) s' 1 data'
  end.

Definition split_blocks (sd : split_defaults) (rapid_only : bool) (step : Z) (rp : option block)
  (data : list block) : res (list (list block)) :=
  if step <=? 0 then Exc (EFileSplitter ["CannotSplitFileNumberOfBlocks"])
  else split_blocks_acc sd rapid_only step rp [[]] fs_init 0 data.

(** FileSplitter.cpp 205-232. *)
Fixpoint split_tool_acc (sd : split_defaults) (rp : option block) (ps : list (list block))
  (s : fs_state) (data : list block) : res (list (list block)) :=
  match data with
  | [] => Ok (rev ps)
  | x :: data' =>
      do s' <- fs_block sd s x;
      if negb (fs_tool_change s' && (1 <? fs_tool_cnt s'))
      then split_tool_acc sd rp (push_back ps x) s' data'
      else split_tool_acc sd rp (open_piece rp ps x) s' data'
  end.

Definition split_tool (sd : split_defaults) (rp : option block) (data : list block)
  : res (list (list block)) :=
  split_tool_acc sd rp [[]] fs_init data.

(** FileSplitter.cpp 234-272 (path) and 274-312 (time): identical but for the
    unit and the name of the message for a non-positive limit; [w] is the work motion per block ([vec_..._result[cnt].work_motion]).
    The vector has one entry per block (AllAttributesParser.cpp 499-512), so a
    missing entry is undefined behaviour. *)
Fixpoint split_amount_acc (sd : split_defaults) (rapid_only : bool) (limit : Z) (rp : option block)
  (ps : list (list block)) (s : fs_state) (acc : dbl) (data : list block) (w : list dbl)
  : res (list (list block)) :=
  match data with
  | [] => Ok (rev ps)
  | x :: data' =>
      do s' <- fs_block sd s x;
      match w with
      | [] => Exc (EUB "index out of range")
      | m :: w' =>
          if dltb acc (d_of_Z limit) || one_block_after_start s'
             || (rapid_only && negb (fs_active_g s' =? 0))
          then split_amount_acc sd rapid_only limit rp (push_back ps x) s' (dadd acc m) data' w'
          else split_amount_acc sd rapid_only limit rp (open_piece rp ps x) s' (dadd dzero m) data' w'
      end
  end.

Definition split_amount (sd : split_defaults) (rapid_only : bool) (limit : Z) (rp : option block)
  (data : list block) (w : list dbl) : res (list (list block)) :=
  if limit <=? 0 then Exc (EFileSplitter ["CannotSplitFileToolPathLength/ToolTime"])
  else split_amount_acc sd rapid_only limit rp [[]] fs_init dzero data w.
