(** The cases of MacroEvaluatorTest.cpp and ValueCalculatorTest.cpp of
    parser_ut/fanuc. *)
From Verif Require Import Model.Base Model.Attr Model.Double Model.Macro Model.Calc Model.MacroAssign Model.PathGeom Checks.Approx.
Local Open Scope string_scope.
Local Open Scope Z_scope.

Definition tol : dbl := d_of_ratio false 1 (10 ^ 8).
Definition lit (s : string) : dbl := match stod s with Ok x => x | Exc _ => S754_nan end.
Definition libm (f : string) (x : dbl) : dbl := if String.eqb f "sin" then sin_series x else S754_nan.

Definition value (mv : macro_map dbl) (s : string) (v : dbl) : bool :=
  match value_calculator lit libm mv s with Ok (CValue x) => near tol v x | _ => false end.

Example vc_generalCalculator : Forall (fun x => value (fst (fst x)) (snd (fst x)) (snd x) = true)
  [(([]), "5+5", (d_of_ratio false 10 1));
   (([]), "SQRT(9)", (d_of_ratio false 3 1));
   (([]), "5+5*4", (d_of_ratio false 25 1));
   (([]), "(5+5)*4", (d_of_ratio false 40 1));
   (([]), "(-5.2+5.4)*4", (d_of_ratio false 4 5));
   (([]), "SIN(((-2+3)*4+5)*6)", (d_of_ratio false 809016994374947 1000000000000000));
   (([]), "ABS[-6]/2", (d_of_ratio false 3 1));
   ((made [(mkKey 1 1, (d_of_ratio false 2 1)); (mkKey 2 1, (d_of_ratio false 3 1))]), "#1+#2", (d_of_ratio false 5 1));
   ((made [(mkKey 1 1, (d_of_ratio false 2 1)); (mkKey 2 1, (d_of_ratio false 3 1)); (mkKey 5 1, (d_of_ratio false 7 1))]), "#[#1+#2]", (d_of_ratio false 7 1));
   (([]), "8/2", (d_of_ratio false 4 1));
   (([]), "[8/2]", (d_of_ratio false 4 1));
   (([]), "[[8/2]]", (d_of_ratio false 4 1))].
Proof. repeat (constructor; [vm_compute; reflexivity|]). constructor. Qed.

(** A key that must hold the value afterwards, or ([None]) a refusal with the key
    not there. *)
Fixpoint evaluates (mv : macro_map dbl) (l : list (mkey * option dbl * block)) : Prop :=
  match l with
  | [] => True
  | (k, v, b) :: l =>
      match macro_evaluate lit libm mv 1 b with
      | Ok (mv', r) =>
          match v, r with
          | Some v, None =>
              existsb (fun x => (k_id (fst x) =? k_id k) && (k_line (fst x) =? k_line k) && near tol v (snd x)) mv' = true
          | None, Some _ => existsb (fun x => (k_id (fst x) =? k_id k) && (k_line (fst x) =? k_line k)) mv' = false
          | _, _ => False
          end /\ evaluates mv' l
      | Exc _ => False
      end
  end.

Example me_generalEvaluator : evaluates []
  [(mkKey 1 1, Some (d_of_ratio false 9 1), [ADec (mkDec "#" None None None None (Some "1") None None None); ADec (mkDec "=" None None None None (Some "9") None None None)]);
   (mkKey 2 1, Some (d_of_ratio false 5 1), [ADec (mkDec "#" None None None None (Some "2") None None None); ADec (mkDec "=" None None None None (Some "5") None None None)]);
   (mkKey 3 1, Some (d_of_ratio false 45 1), [ADec (mkDec "#" None None None None (Some "3") None None None); ADec (mkDec "=" None None None (Some "#") (Some "1") None None None); ADec (mkDec "*" None None None (Some "#") (Some "2") None None None)]);
   (mkKey 4 1, Some (d_of_ratio false 3 1), [ADec (mkDec "#" None None None None (Some "4") None None None); ADec (mkDec "=" None None None None None None None None); ADec (mkDec "SQRT" None None (Some "[") (Some "#") (Some "1") None (Some "]") None)]);
   (mkKey 6 0, None, [ADec (mkDec "#" None None None None (Some "6") None None None); ADec (mkDec "=" None None None (Some "#") (Some "2") None None None); ADec (mkDec "/" None None None (Some "#") (Some "5") None None None)]);
   (mkKey 5 1, Some (d_of_ratio false 10 1), [ADec (mkDec "#" None None None None (Some "5") None None None); ADec (mkDec "=" None None (Some "[") (Some "#") (Some "3") None None None); ADec (mkDec "-" None None None None (Some "20") None None (Some "]")); ADec (mkDec "/" None None None None (Some "5") None None None); ADec (mkDec "*" None None None None None None None None); ADec (mkDec "SQRT" None None (Some "[") None None None None None); ADec (mkDec "ABS" None None (Some "[") None None None None None); ADec (mkDec "-" None None None (Some "#") (Some "1") None None None); ADec (mkDec "+" None None None (Some "#") (Some "2") None None (Some "]]"))]);
   (mkKey 6 1, Some (d_of_ratio false 241481456572267 250000000000000), [ADec (mkDec "#" None None None None (Some "6") None None None); ADec (mkDec "=" None None None None None None None None); ADec (mkDec "SIN" None None (Some "[[[") (Some "#") (Some "2") None None None); ADec (mkDec "+" None None None (Some "#") (Some "3") None None (Some "]")); ADec (mkDec "*" None None None (Some "#") (Some "4") None None None); ADec (mkDec "+" None None None (Some "#") (Some "1") None None (Some "]")); ADec (mkDec "*" None None None (Some "#") (Some "2") None None (Some "]"))]);
   (mkKey 7 0, None, [ADec (mkDec "#" None None None None (Some "7") None None None)]);
   (mkKey 7 0, None, [ADec (mkDec "#" None None None None (Some "7") None None None); ADec (mkDec "=" None None None None None None None None)]);
   (mkKey 7 0, None, [ADec (mkDec "#" None None None None (Some "7") None None None); ADec (mkDec "=" None None None None (Some "5") None None None); ADec (mkDec "*" None None None None None None None None)]);
   (mkKey 7 0, None, [ADec (mkDec "#" None None None None (Some "7") None None None); ADec (mkDec "=" None None None (Some "#") (Some "5") None None None); ADec (mkDec "*" None None None None None None None None)])].
Proof. vm_compute. repeat split. Qed.
