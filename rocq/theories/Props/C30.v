(** C30: names of the configuration enumerations. *)
From Verif Require Import Model.Base Model.Attr Model.Rotator Model.UnitConv Model.Enums Spec.EnumSpec
  Proofs.EnumProofs.

(** Every enumeration but the rotation direction (see [C30_refuted]): writing
    then reading gives the value back, exactly the documented names are read. *)
Theorem C30_partial :
  agree cnc_type_name to_cnc_type cnc_types /\
  agree parser_type_name to_parser_type drivers /\
  agree tool_type_name to_tool_type tool_types /\
  agree machine_tool_name to_machine_tool machine_tools /\
  agree language_name to_language languages /\
  agree driver_units_name to_driver_units units /\
  agree unit_dir_name to_unit_dir conversions /\
  agree rot_option_name to_rot_option rotations /\
  agree motion_name to_motion motions /\
  agree work_plane_name to_work_plane work_planes /\
  agree programming_name to_programming programmings /\
  agree feed_mode_name to_feed_mode feed_modes /\
  agree depth_programming_name to_depth_programming depth_programmings /\
  agree drill_return_name to_drill_return drill_returns /\
  agree word_type_name to_word_type word_types.
Proof.
  exact (conj cnc_type_agree (conj parser_type_agree (conj tool_type_agree (conj machine_tool_agree
    (conj language_agree (conj driver_units_agree (conj unit_dir_agree (conj rot_option_agree
    (conj motion_agree (conj work_plane_agree (conj programming_agree (conj feed_mode_agree
    (conj depth_agree (conj drill_return_agree word_type_agree)))))))))))))).
Qed.
Print Assumptions C30_partial.

(** The same through the stream operators: for each of those enumerations what
    is inserted is extracted again, whatever white space stands before it and
    whatever follows the next white space. *)
Theorem C30_stream : forall E (write : E -> string) read names,
  agree write read names ->
  (forall s e, In (s, e) names -> s <> "" /\ all_chars (fun c => negb (is_space c)) s = true) ->
  forall os ws e rest, blank ws -> ends_token rest ->
  stream_read read (ws ++ stream_write write "" e ++ rest) = Ok (e, rest) /\
  stream_write write os e = os ++ write e.
Proof.
  intros E write read names H H0. apply agree_stream with (1 := H).
  unfold tokens. rewrite forallb_forall. intros [s e] Hi. destruct (H0 s e Hi) as [H1 H2]. cbn.
  unfold token. rewrite H2. cbn. destruct (String.eqb_spec s ""); auto.
Qed.
Print Assumptions C30_stream.

(** A rotation direction is read from exactly its documented names. *)
Theorem C30_rotation_names :
  (forall s e, In (s, e) rotation_dirs -> to_rotation_dir s = Ok e) /\
  (forall s, ~ In s (map fst rotation_dirs) -> to_rotation_dir s = Exc EInvalidArgument).
Proof. exact rotation_dir_reads. Qed.
Print Assumptions C30_rotation_names.

(** Extracting what was inserted into a stream gives the direction back, but
    leaves the rest of the description in the stream. *)
Theorem C30_rotation_stream : forall ws e rest, blank ws -> ends_token rest ->
  exists left, stream_read to_rotation_dir (ws ++ rotation_dir_name e ++ rest) = Ok (e, left).
Proof. exact rotation_dir_stream. Qed.
Print Assumptions C30_rotation_stream.

(** The text of a setting is accepted exactly when it is a documented name with
    white space around it. *)
Theorem C30_settings : forall v,
  (forall e, setting_read to_machine_tool v = Ok e <->
    exists a s b, v = a ++ s ++ b /\ blank a /\ blank b /\ In (s, e) machine_tools) /\
  (forall e, setting_read to_tool_type v = Ok e <->
    exists a s b, v = a ++ s ++ b /\ blank a /\ blank b /\ In (s, e) tool_types) /\
  (forall e, setting_read to_parser_type v = Ok e <->
    exists a s b, v = a ++ s ++ b /\ blank a /\ blank b /\ In (s, e) drivers) /\
  (forall e, setting_read to_motion v = Ok e <->
    exists a s b, v = a ++ s ++ b /\ blank a /\ blank b /\ In (s, e) motions) /\
  (forall e, setting_read to_work_plane v = Ok e <->
    exists a s b, v = a ++ s ++ b /\ blank a /\ blank b /\ In (s, e) work_planes) /\
  (forall e, setting_read to_driver_units v = Ok e <->
    exists a s b, v = a ++ s ++ b /\ blank a /\ blank b /\ In (s, e) units) /\
  (forall e, setting_read to_programming v = Ok e <->
    exists a s b, v = a ++ s ++ b /\ blank a /\ blank b /\ In (s, e) programmings) /\
  (forall e, setting_read to_feed_mode v = Ok e <->
    exists a s b, v = a ++ s ++ b /\ blank a /\ blank b /\ In (s, e) feed_modes) /\
  (forall e, setting_read to_rotation_dir v = Ok e <->
    exists a s b, v = a ++ s ++ b /\ blank a /\ blank b /\ In (s, e) rotation_dirs) /\
  (forall e, setting_read to_depth_programming v = Ok e <->
    exists a s b, v = a ++ s ++ b /\ blank a /\ blank b /\ In (s, e) depth_programmings) /\
  (forall e, setting_read to_drill_return v = Ok e <->
    exists a s b, v = a ++ s ++ b /\ blank a /\ blank b /\ In (s, e) drill_returns).
Proof.
  intros v.
  exact (conj (agree_setting _ _ _ machine_tool_agree eq_refl v)
    (conj (agree_setting _ _ _ tool_type_agree eq_refl v)
    (conj (agree_setting _ _ _ parser_type_agree eq_refl v)
    (conj (agree_setting _ _ _ motion_agree eq_refl v)
    (conj (agree_setting _ _ _ work_plane_agree eq_refl v)
    (conj (agree_setting _ _ _ driver_units_agree eq_refl v)
    (conj (agree_setting _ _ _ programming_agree eq_refl v)
    (conj (agree_setting _ _ _ feed_mode_agree eq_refl v)
    (conj (setting_accepts _ _ (proj1 rotation_dir_reads) (proj2 rotation_dir_reads) eq_refl v)
    (conj (agree_setting _ _ _ depth_agree eq_refl v)
          (agree_setting _ _ _ drill_return_agree eq_refl v))))))))))).
Qed.
Print Assumptions C30_settings.

(** The property itself is false of the rotation direction: no value survives
    being written and read back, directly or as a setting. *)
Theorem C30_refuted : forall e,
  to_rotation_dir (rotation_dir_name e) = Exc EInvalidArgument /\
  setting_read to_rotation_dir (rotation_dir_name e) = Exc EInvalidArgument.
Proof. intros []; split; reflexivity. Qed.
Print Assumptions C30_refuted.

(** The driver list of the shipped configuration contains a name that is
    rejected. *)
Theorem C30_driver_refuted : exists s, In s driver_list /\
  to_parser_type s = Exc EInvalidArgument /\ setting_read to_parser_type s = Exc EInvalidArgument.
Proof. exists "heidenhain". repeat split; cbn; tauto. Qed.
Print Assumptions C30_driver_refuted.

Example C30_ex :
  stream_read to_machine_tool ("  " ++ machine_tool_name MT_millturn_XYZBC_C2 ++ " 7") =
    Ok (MT_millturn_XYZBC_C2, " 7") /\
  setting_read to_machine_tool " lathe_zx " = Ok MT_lathe_zx /\
  setting_read to_machine_tool "lathe_zx c" = Exc EInvalidArgument /\
  to_machine_tool "Lathe_zx" = Exc EInvalidArgument /\
  (forall s e, In (s, e) machine_tools -> s <> "" /\ all_chars (fun c => negb (is_space c)) s = true).
Proof.
  repeat split; try reflexivity;
  cbn in H; repeat destruct H as [H|H]; try contradiction; injection H as <- <-; try reflexivity; discriminate.
Qed.
