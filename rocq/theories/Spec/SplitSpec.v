(** Splitting a program into pieces. *)
From Verif Require Import Model.Base Model.Attr Model.Double Model.Splitter.
From Verif Require Export Spec.Text.

(** Pieces after the first one, with a retraction plane [r] at their start and,
    except for the last, at their end. *)
Fixpoint fence_rest {A} (r : A) (cores : list (list A)) : list (list A) :=
  match cores with
  | [] => []
  | [c] => [r :: c]
  | c :: cs => (r :: c ++ [r])%list :: fence_rest r cs
  end.

(** Retraction planes at the end of every piece but the last and at the start
    of every piece but the first. *)
Definition fenced {A} (rp : option A) (cores : list (list A)) : list (list A) :=
  match rp, cores with
  | Some r, c :: ((_ :: _) as cs) => (c ++ [r])%list :: fence_rest r cs
  | _, _ => cores
  end.

(** [cores] is a partition of [data] in order; only the first part may be empty. *)
Definition partition {A} (data : list A) (cores : list (list A)) : Prop :=
  List.concat cores = data /\ cores <> [] /\ Forall (fun c => c <> []) (tl cores).

(** A new part starts with the element [x] that follows the elements [pre]. *)
Definition starts_part {A} (cores : list (list A)) (pre : list A) (x : A) (post : list A) : Prop :=
  exists cs1 c cs2, cores = (cs1 ++ (x :: c) :: cs2)%list /\ cs1 <> [] /\
    List.concat cs1 = pre /\ (c ++ List.concat cs2)%list = post.

(** ** Tool changes *)

(** Words before an optional-block mark "/" take effect. *)
Fixpoint effective (b : block) : list decimal :=
  match b with
  | [] => []
  | ADec d :: b' => if String.eqb (d_word d) "/" then [] else d :: effective b'
  | _ :: b' => effective b'
  end.

(** The word changes the tool: T when the tool number executes the exchange,
    otherwise M6; words with a decimal part are not looked at. *)
Definition changes_tool (t_executes : bool) (d : decimal) : Prop :=
  d_dot d = None /\ d_value2 d = None /\
  (if t_executes then d_word d = "T" /\ d_value d <> None
   else d_word d = "M" /\ exists v, d_value d = Some v /\ denotes v 6).

(** The block holds a tool change with another one before it (in an earlier
    block or in the same block). *)
Definition later_tool_change (t_executes : bool) (pre : list block) (b : block) : Prop :=
  exists d l1 l2, effective b = (l1 ++ d :: l2)%list /\ changes_tool t_executes d /\
    exists d', changes_tool t_executes d' /\ (In d' l1 \/ exists b', In b' pre /\ In d' (effective b')).

(** G and M values are digits and fit an int. *)
Definition readable_block (b : block) : Prop :=
  forall d v, In (ADec d) b -> d_word d = "G" \/ d_word d = "M" -> d_value d = Some v ->
  exists n, denotes v n /\ n <= int_max.

(** ** Drilling *)

(** The block neither starts nor cancels a drilling cycle. *)
Definition no_cycle_code (b : block) : Prop :=
  forall d v n, In (ADec d) b -> d_word d = "G" -> d_value d = Some v -> denotes v n ->
  ~ In n [73; 74; 76; 80; 81; 82; 83; 84; 85; 86; 87; 88; 89].

(** The latest motion code (G0-G3, a drilling cycle or its cancellation) of the
    program is G0. *)
Definition g_code (d : decimal) (n : Z) : Prop :=
  d_word d = "G" /\ exists v, d_value d = Some v /\ denotes v n.

Definition motion_code (n : Z) : Prop :=
  In n [0; 1; 2; 3; 73; 74; 76; 80; 81; 82; 83; 84; 85; 86; 87; 88; 89].

Definition in_rapid (p : list block) : Prop :=
  exists l1 d l2, List.concat (map effective p) = (l1 ++ d :: l2)%list /\ g_code d 0 /\
    forall d' n, In d' l2 -> g_code d' n -> ~ motion_code n.

(** ** Results *)

(** [ps] are the parts of [data] with retraction planes between them. *)
Definition splits {A} (rp : option A) (data : list A) (ps : list (list A)) : Prop :=
  exists cores, partition data cores /\ ps = fenced rp cores.

(** ** Amounts *)

(** The sum of the amounts, added one after the other as doubles. *)
Definition total (l : list dbl) : dbl := fold_left dadd l dzero.

(** The amount of a part: its blocks come with their amounts. *)
Definition amount (p : list (block * dbl)) : dbl := total (map snd p).

(** ** Cycles *)

(** The latest motion code of [l] is [n]. *)
Definition last_motion (l : list decimal) (n : Z) : Prop :=
  exists l1 d l2, l = (l1 ++ d :: l2)%list /\ g_code d n /\ motion_code n /\
    forall d' m, In d' l2 -> g_code d' m -> ~ motion_code m.

Definition drill_code (n : Z) : Prop := In n [73; 74; 76; 81; 82; 83; 84; 85; 86; 87; 88; 89].

(** At the block [b] behind [pre] a drilling cycle goes on: the latest motion
    code before is a drilling cycle and [b] has none; or [b] cancels a cycle. *)
Definition cycle_goes_on (pre : list block) (b : block) : Prop :=
  (exists n, last_motion (List.concat (map effective pre)) n /\ drill_code n /\
     forall d m, In d (effective b) -> g_code d m -> ~ motion_code m) \/
  last_motion (effective b) 80.

(** ** Where the cuts are *)

(** Cuts are only made where [may before part x] holds: [x] starts a part,
    [part] is the part in front of it and [before] is everything in front of
    that part. *)
Definition cuts_only {A} (may : list A -> list A -> A -> Prop) (parts : list (list A)) : Prop :=
  forall ps1 part x r ps2, parts = (ps1 ++ part :: (x :: r) :: ps2)%list -> may (List.concat ps1) part x.

(** No cut is missed: where a part goes on with [x], none was allowed. *)
Definition cuts_all {A} (may : list A -> list A -> A -> Prop) (parts : list (list A)) : Prop :=
  forall ps1 part x r ps2, parts = (ps1 ++ (part ++ x :: r) :: ps2)%list -> part <> [] -> ~ may (List.concat ps1) part x.

(** A part may end when it has [n] blocks, outside of drilling cycles and, if
    asked for, in rapid traverse. *)
Definition enough_blocks (n : Z) (rapid : bool) (before part : list block) (x : block) : Prop :=
  n <= Z.of_nat (List.length part) /\ ~ cycle_goes_on (before ++ part)%list x /\
  (rapid = true -> in_rapid (before ++ part ++ [x])%list).

(** A part may end when its amount has reached the limit. *)
Definition enough_amount (limit : Z) (rapid : bool) (before part : list (block * dbl)) (x : block * dbl) : Prop :=
  dltb (amount part) (d_of_Z limit) = false /\ ~ cycle_goes_on (map fst (before ++ part)%list) (fst x) /\
  (rapid = true -> in_rapid (map fst (before ++ part ++ [x])%list)).
