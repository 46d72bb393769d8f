(** The cases of CodeGroupsVerifierTest.cpp, MacroEvaluatedCodeVerifierTest.cpp,
    RangeVerifierTest.cpp, RotationVerifierTest.cpp, SameWordInBlockVerifierTest.cpp
    and SystemMacroAssignerTest.cpp of parser_ut/fanuc. *)
From Verif Require Import Model.Base Model.Attr Model.Double Model.Macro Model.Verifiers Model.MacroEval Model.PathGeom Checks.Approx.
Local Open Scope string_scope.
Local Open Scope Z_scope.

(** [EXPECT_THROW] of one type of exception, or [EXPECT_NO_THROW]. *)
Definition throws {A} (is : exn -> bool) (r : res A) : option bool :=
  match r with Ok _ => Some false | Exc e => if is e then Some true else None end.

Definition gg : code_groups := [(mkCgv 4 0, ["0"]); (mkCgv 5 1, ["0"]); (mkCgv 5 4, ["0"]); (mkCgv 2 0, ["1"]); (mkCgv 2 2, ["1"])].
Definition mg : code_groups := [(mkCgv 14 0, ["0"; "1"]); (mkCgv 15 0, ["0"]); (mkCgv 22 0, ["1"]); (mkCgv 23 0, ["1"])].
Definition is_groups (e : exn) : bool := match e with ECodeGroups _ => true | _ => false end.

Example cgv_GCodeGroup : Forall (fun x => throws is_groups (code_groups_verifier (fst (fst x)) gg mg 1 true (snd (fst x))) = Some (snd x))
  [(([]), [ADec (mkDec "N" None None None None (Some "10") None None None); ADec (mkDec "G" None None None None (Some "04") None None None)], false);
   (([]), [ADec (mkDec "N" None None None None (Some "10") None None None); ADec (mkDec "G" None None None None (Some "4") None None None); ADec (mkDec "G" None None None None (Some "02") None None None)], false);
   (([]), [ADec (mkDec "N" None None None None (Some "10") None None None); ADec (mkDec "G" None None None None (Some "4") None None None); ADec (mkDec "G" None None None None (Some "5") (Some "."%char) (Some "1") None)], true);
   (([]), [ADec (mkDec "N" None None None None (Some "10") None None None); ADec (mkDec "G" None None None None (Some "10") None None None)], true);
   (([]), [ADec (mkDec "N" None None None None (Some "10") None None None); ADec (mkDec "#" None None None None (Some "1") None None None); ADec (mkDec "=" None None None None (Some "5") (Some "."%char) (Some "4") None)], false);
   (([]), [ADec (mkDec "N" None None None None (Some "10") None None None); ADec (mkDec "G" None None None None (Some "2") (Some "."%char) (Some "2") None); ADec (mkDec "G" None None None (Some "#") (Some "1") None None None)], true);
   ((made [(mkKey 1 1, (d_of_ratio false 27 5))]), [ADec (mkDec "N" None None None None (Some "10") None None None); ADec (mkDec "G" None None None None (Some "2") (Some "."%char) (Some "2") None); ADec (mkDec "G" None None None (Some "#") (Some "1") None None None)], false);
   ((made [(mkKey 1 1, (d_of_ratio false 27 5))]), [ADec (mkDec "N" None None None None (Some "10") None None None); ADec (mkDec "G" None None None None (Some "5") (Some "."%char) (Some "1") None); ADec (mkDec "G" None None None (Some "#") (Some "1") None None None)], true);
   ((made [(mkKey 1 1, (d_of_ratio false 27 5))]), [ADec (mkDec "N" None None None None (Some "10") None None None); ADec (mkDec "G" None None None None (Some "5") (Some "."%char) (Some "1") None); ADec (mkDec "G" None None None (Some "#") (Some "2") None None None)], true)].
Proof. repeat (constructor; [vm_compute; reflexivity|]). constructor. Qed.

Example cgv_MCodeGroup : Forall (fun x => throws is_groups (code_groups_verifier (fst (fst x)) gg mg 1 true (snd (fst x))) = Some (snd x))
  [(([]), [ADec (mkDec "N" None None None None (Some "10") None None None); ADec (mkDec "M" None None None None (Some "14") None None None)], false);
   (([]), [ADec (mkDec "N" None None None None (Some "10") None None None); ADec (mkDec "M" None None None None (Some "15") None None None); ADec (mkDec "M" None None None None (Some "22") None None None)], false);
   (([]), [ADec (mkDec "N" None None None None (Some "10") None None None); ADec (mkDec "M" None None None None (Some "14") None None None); ADec (mkDec "M" None None None None (Some "15") None None None)], true);
   (([]), [ADec (mkDec "N" None None None None (Some "10") None None None); ADec (mkDec "M" None None None None (Some "14") None None None); ADec (mkDec "M" None None None None (Some "23") None None None)], true);
   (([]), [ADec (mkDec "N" None None None None (Some "10") None None None); ADec (mkDec "M" None None None None (Some "10") None None None)], true);
   (([]), [ADec (mkDec "N" None None None None (Some "10") None None None); ADec (mkDec "#" None None None None (Some "3") None None None); ADec (mkDec "=" None None None None (Some "15") None None None)], false);
   (([]), [ADec (mkDec "N" None None None None (Some "10") None None None); ADec (mkDec "M" None None None None (Some "22") None None None); ADec (mkDec "M" None None None (Some "#") (Some "3") None None None)], true);
   ((made [(mkKey 3 1, (d_of_ratio false 15 1))]), [ADec (mkDec "N" None None None None (Some "10") None None None); ADec (mkDec "M" None None None None (Some "22") None None None); ADec (mkDec "M" None None None (Some "#") (Some "3") None None None)], false);
   ((made [(mkKey 3 1, (d_of_ratio false 15 1))]), [ADec (mkDec "N" None None None None (Some "10") None None None); ADec (mkDec "M" None None None None (Some "14") None None None); ADec (mkDec "M" None None None (Some "#") (Some "3") None None None)], true);
   ((made [(mkKey 3 1, (d_of_ratio false 15 1))]), [ADec (mkDec "N" None None None None (Some "10") None None None); ADec (mkDec "M" None None None None (Some "15") None None None); ADec (mkDec "M" None None None (Some "#") (Some "2") None None None)], true)].
Proof. repeat (constructor; [vm_compute; reflexivity|]). constructor. Qed.

Definition ops : list string := ["SIN"; "COS"; "TAN"; "ATAN"; "SQRT"; "ABS"; "ROUND"; "FIX"; "FUP"; "OR"; "XOR"; "AND"; "BIN"; "BCD"; "OR"; "XOR"; "AND"; "IF"; "WHILE"; "DO"; "END"; "EQ"; "LE"].
Definition code_is (mv : macro_map dbl) (b : block) : option (option string) :=
  match evaluated_code ops mv 1 b with
  | Ok t => Some (Some t)
  | Exc (EMacroEvaluatedCode _) => Some None
  | Exc _ => None
  end.

Example mec_GeneralVerifier : Forall (fun x => code_is (fst (fst x)) (snd (fst x)) = Some (snd x))
  [(([]), [ADec (mkDec "T" None None None None (Some "4") None None None)], Some "");
   (([]), [ADec (mkDec "#" None None None None (Some "1") None None None); ADec (mkDec "=" None None None None (Some "5") None None None)], Some "");
   (([]), [ADec (mkDec "#" None None None None (Some "2") None None None); ADec (mkDec "=" None None None None (Some "5") (Some "."%char) (Some "4") None)], Some "");
   (([]), [ADec (mkDec "T" None None None (Some "#") (Some "1") None None None)], None);
   ((made [(mkKey 1 1, (d_of_ratio false 5 1))]), [ADec (mkDec "T" None None None (Some "#") (Some "1") None None None)], Some "T5");
   ((made [(mkKey 1 1, (d_of_ratio false 5 1))]), [ADec (mkDec "A" None None None (Some "#") (Some "1") None None None)], Some "A5");
   ((made [(mkKey 1 1, (d_of_ratio false 5 1))]), [ADec (mkDec "A" None None None (Some "#") (Some "2") None None None)], None)].
Proof. repeat (constructor; [vm_compute; reflexivity|]). constructor. Qed.

Definition kin : kinematics :=
  mkKin [("X", (dz (-500), dz 500)); ("Y", (dz (-500), dz 500)); ("Z", (dz 0, dz 1000))] (dz 20000) 10000 30.
Definition zp : zero_point := mkZP (dz (-400)) (dz 0) (dz 0).
Definition is_range (e : exn) : bool := match e with ERangeVerifier _ => true | _ => false end.

Example rv_Kinematics : Forall (fun x => throws is_range (range_verifier (fst (fst x)) kin (snd (fst x))) = Some (snd x))
  [(MTMill, [ADec (mkDec "S" None None None None (Some "10") None None None)], false);
   (MTMill, [ADec (mkDec "S" None None None None (Some "10001") None None None)], true);
   (MTMill, [ADec (mkDec "T" None None None None (Some "10") None None None)], false);
   (MTMill, [ADec (mkDec "T" None None None None (Some "31") None None None)], true);
   (MTMill, [ADec (mkDec "F" None None None None (Some "1000") None None None)], false);
   (MTMill, [ADec (mkDec "F" None None None None (Some "31000") None None None)], true);
   (MTLathe, [ADec (mkDec "T" None None None None (Some "1020") None None None)], false)].
Proof. repeat (constructor; [vm_compute; reflexivity|]). constructor. Qed.

Example rv_AxesRange : Forall (fun x => throws is_range (axis_verifier kin zp (fst x)) = Some (snd x))
  [([("X", ((d_of_ratio true 10 1), (d_of_ratio false 10 1), (d_of_ratio false 30 1)))], false);
   ([("X", ((d_of_ratio true 600 1), (d_of_ratio false 10 1), (d_of_ratio false 3000 1)))], false);
   ([("X", ((d_of_ratio true 60 1), (d_of_ratio false 1000 1), (d_of_ratio false 3000 1)))], true);
   ([("X", ((d_of_ratio true 60 1), (d_of_ratio false 800 1), (d_of_ratio false 3000 1)))], false)].
Proof. repeat (constructor; [vm_compute; reflexivity|]). constructor. Qed.

Definition rotation (op : bool) (b : block) : option bool :=
  match snd (rotation_verifier op rot_init b) with
  | None => Some false
  | Some (ERotation _) => Some true
  | Some _ => None
  end.

Example rot_Spindle : Forall (fun x => rotation (fst (fst x)) (snd (fst x)) = Some (snd x))
  [(false, [ADec (mkDec "S" None None None None (Some "10") None None None); ADec (mkDec "M" None None None None (Some "03") None None None)], false);
   (true, [ADec (mkDec "S" None None None None (Some "10") None None None); ADec (mkDec "M" None None None None (Some "03") None None None)], true);
   (false, [ADec (mkDec "M" None None None None (Some "03") None None None); ADec (mkDec "G" None None None None (Some "81") None None None)], true);
   (false, [ADec (mkDec "S" None None None None (Some "100") None None None); ADec (mkDec "G" None None None None (Some "89") None None None)], true);
   (false, [ADec (mkDec "G" None None None None (Some "01") None None None)], true);
   (true, [ADec (mkDec "G" None None None None (Some "01") None None None)], false)].
Proof. repeat (constructor; [vm_compute; reflexivity|]). constructor. Qed.

Definition is_same (e : exn) : bool := match e with ESameWord _ => true | _ => false end.

Example sw_exceptionThrownWhenDuplicatedWords : throws is_same (same_word "M" [ADec (mkDec "M" None None None None (Some "10") None None None); ADec (mkDec "M" None None None None (Some "20") None None None)]) = Some true.
Proof. vm_compute. reflexivity. Qed.

Example sw_exceptionNotThrownWhenNoDuplicatedWords : throws is_same (same_word "M" [ADec (mkDec "M" None None None None (Some "10") None None None); ADec (mkDec "X" None None None None (Some "10") None None None)]) = Some false.
Proof. vm_compute. reflexivity. Qed.

Definition tol : dbl := d_of_ratio false 1 (10 ^ 8).
Definition macros_are (r : macro_map dbl * option exn) (l : macro_map dbl) : bool :=
  match snd r with
  | Some _ => false
  | None =>
      Nat.eqb (List.length (fst r)) (List.length l) &&
      forallb (fun e => existsb (fun x => (k_id (fst x) =? k_id (fst e)) && (k_line (fst x) =? k_line (fst e))
                                          && near tol (snd e) (snd x)) (fst r)) l
  end.

Example sma_Generic : Forall (fun x => macros_are (system_assign [] 1 (fst x)) (snd x) = true)
  [([ADec (mkDec "D" None (Some "-"%char) None None (Some "4") None None None)], (made [(mkKey 4107 1, (d_of_ratio true 4 1)); (mkKey 4307 1, (d_of_ratio true 4 1)); (mkKey 4507 1, (d_of_ratio true 4 1))]));
   ([ADec (mkDec "F" None None None None (Some "1000") (Some "."%char) (Some "43") None)], (made [(mkKey 4109 1, (d_of_ratio false 100043 100)); (mkKey 4309 1, (d_of_ratio false 100043 100)); (mkKey 4509 1, (d_of_ratio false 100043 100))]));
   ([ADec (mkDec "F" None None None None None (Some "."%char) (Some "43") None)], (made [(mkKey 4109 1, (d_of_ratio false 43 100)); (mkKey 4309 1, (d_of_ratio false 43 100)); (mkKey 4509 1, (d_of_ratio false 43 100))]));
   ([ADec (mkDec "M" None None None None (Some "300") None None None)], (made [(mkKey 4113 1, (d_of_ratio false 300 1)); (mkKey 4313 1, (d_of_ratio false 300 1)); (mkKey 4513 1, (d_of_ratio false 300 1))]));
   ([ADec (mkDec "N" None None None None (Some "123") None None None)], (made [(mkKey 4114 1, (d_of_ratio false 123 1)); (mkKey 4314 1, (d_of_ratio false 123 1)); (mkKey 4514 1, (d_of_ratio false 123 1))]));
   ([ADec (mkDec "S" None None None None (Some "10") None None None)], (made [(mkKey 4119 1, (d_of_ratio false 10 1)); (mkKey 4319 1, (d_of_ratio false 10 1)); (mkKey 4519 1, (d_of_ratio false 10 1))]))].
Proof. repeat (constructor; [vm_compute; reflexivity|]). constructor. Qed.
