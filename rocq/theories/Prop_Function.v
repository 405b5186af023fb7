(** C12: functions defined by FUNCTION.  C49: which definitions an expression depends on. *)
From Coq Require Import ZArith String List Bool.
From Verif Require Import M_Char M_Error M_Value M_Text M_Number M_Operators M_Parsers M_Expr M_Symbols M_AsmDriver S_Expr S_ExprTree S_Function
  P_Agree P_ExprCase P_Function P_FunctionCase.
Import ListNotations.
Open Scope string_scope.
Open Scope list_scope.
Local Open Scope Z_scope.

(* ------------------------------------------------------------ C12 *)
(* A line [name FUNCTION p1, p2, ..., body] defines [name] with these parameters and this body, in
   the syntax of the assembler, when neither a function nor a symbol has the name. *)
Theorem C12_function_line : forall O (v : env O) f (s : lst O) params body,
  In f tree_families -> function_line params body (l_scan s) ->
  l_err s = OK -> l_label s <> [] -> hasFunction (l_label s) (l_store s) = false -> hasSymbol (l_label s) (l_store s) = false ->
  exists s', defineFunction v (fam_pl f) s = (OK, s') /\
    internFunction (l_label s) params body (fam_pl f) (l_store s) = (OK, l_store s') /\
    defined (l_label s) params body (fam_pl f) (l_store s').
Proof. intros O v f s params body. apply C12_line. Qed.
Print Assumptions C12_function_line.
Example C12_function_line_case : function_line [s2l "X"; s2l "LO_2"] (s2l "MAX(X, LO_2)*2 ; twice") (s2l " X, LO_2 ,MAX(X, LO_2)*2 ; twice").
Proof.
  apply (FL_param [32] 88 [] [] [s2l "LO_2"] _ (s2l " LO_2 ,MAX(X, LO_2)*2 ; twice")); [repeat constructor|constructor|left; reflexivity|reflexivity|].
  apply (FL_param [32] 76 (s2l "O_2") [32] [] _ (s2l "MAX(X, LO_2)*2 ; twice")); [repeat constructor|repeat constructor|left; reflexivity|reflexivity|].
  apply (FL_body []); [constructor|reflexivity|]. intros pre post E.
  destruct pre as [|a [|b [|c [|d pre]]]]; cbn in E; try discriminate. injection E as <- <- <- <- _. cbn. tauto.
Qed.

(* A name is defined once; other functions, and the symbols, stay. *)
Theorem C12_defined_once : forall name params body pl s e s', internFunction name params body pl s = (e, s') ->
  (hasFunction name s = true -> e = DUPLICATE_FUNCTION /\ s' = s) /\
  (hasFunction name s = false -> e = OK /\ defined name params body pl s' /\
     (forall other, lookupSymbol other s' = lookupSymbol other s) /\
     (forall other, other <> name -> forall ps b q, defined other ps b q s -> defined other ps b q s')).
Proof.
  intros name params body pl s e s' E. split; intros H.
  - unfold internFunction in E. rewrite H in E. injection E as <- <-. auto.
  - assert (e = OK) as -> by (unfold internFunction in E; rewrite H in E; congruence).
    destruct (intern_find _ _ _ _ _ _ E) as (_ & _ & _ & SS & SV). split; [reflexivity|]. split; [exists s, s'; split; [exact E|constructor]|].
    split; [intros other; unfold lookupSymbol; now rewrite SS, SV|]. intros other _ ps b q (a & c & D & L). exists a, c. split; [exact D|].
    exact (L_function _ _ _ _ _ _ _ _ L E).
Qed.
Print Assumptions C12_defined_once.

(* In the context of any caller: a call of a function with distinct parameters gives the value, or
   the error, of its body, where each parameter has the value of its argument and every other name
   is what it is for the caller. Arguments and body are any expressions of the grammar of C18 (the
   body possibly in another syntax, and calling other functions). *)
Theorem C12_call_by_value_partial : forall f f' depth s loc sym delim name params body a vals b0 b1 b2 b3 t rest eb bb tb rest',
  In f tree_families -> In f' tree_families -> later empty_store s -> known_syntax s ->
  defined name params body (fam_pl f') s -> NoDup params ->
  is_name name -> ~ reserved f name -> p_function (fam_pl f) name = None ->
  let cx := caller (S depth) s loc sym delim in
  quiet cx -> blanks b0 -> blanks b1 -> blanks b2 -> blanks b3 -> ends cx rest ->
  derives_args f cx a t (41 :: b3 ++ rest) -> well_nested_args a -> args_value_slots a <= 8 -> args_operator_slots a <= 6 ->
  values_of a = Val (OK, vals) -> length vals = length params ->
  let cx' := caller depth s loc (bound params vals sym) delim in
  body = bb ++ tb -> blanks bb -> derives f' cx' eb tb rest' -> well_nested eb -> ends cx' rest' -> value_slots eb <= 8 -> operator_slots eb <= 8 ->
  match value_of eb with
  | Val (OK, v) => exists b, blanks b /\ eval (fam_pl f) cx (b0 ++ name ++ b1 ++ 40 :: b2 ++ t) 10 OK = Val (v, OK, b ++ rest, 10)
  | Val (x, _) => exists u, eval (fam_pl f) cx (b0 ++ name ++ b1 ++ 40 :: b2 ++ t) 10 OK = Val (v_undef, x, u, 10)
  | UB => eval (fam_pl f) cx (b0 ++ name ++ b1 ++ 40 :: b2 ++ t) 10 OK = UB
  | OOB => eval (fam_pl f) cx (b0 ++ name ++ b1 ++ 40 :: b2 ++ t) 10 OK = OOB
  | FLOAT => eval (fam_pl f) cx (b0 ++ name ++ b1 ++ 40 :: b2 ++ t) 10 OK = FLOAT
  | FUEL => eval (fam_pl f) cx (b0 ++ name ++ b1 ++ 40 :: b2 ++ t) 10 OK = FUEL
  end.
Proof. exact C12_call. Qed.
Print Assumptions C12_call_by_value_partial.
(* a case: AVG FUNCTION A, B, (A+B)/2 where A is a symbol as well (1000); AVG(10, 2*3) is 8 *)
Example C12_case :
  In ex_fam tree_families /\ later empty_store fc_store /\ known_syntax fc_store /\
  defined (s2l "AVG") fc_params fc_body (fam_pl ex_fam) fc_store /\ NoDup fc_params /\
  is_name (s2l "AVG") /\ ~ reserved ex_fam (s2l "AVG") /\ quiet fc_cx /\ ends fc_cx (s2l "; rest") /\
  derives_args ex_fam fc_cx fc_args (s2l "10, 2*3) ; rest") (41 :: [32] ++ s2l "; rest") /\ well_nested_args fc_args /\
  args_value_slots fc_args <= 8 /\ args_operator_slots fc_args <= 6 /\ values_of fc_args = Val (OK, fc_vals) /\
  derives ex_fam fc_cx' fc_tree fc_body [] /\ well_nested fc_tree /\ value_slots fc_tree <= 8 /\ operator_slots fc_tree <= 8 /\
  value_of fc_tree = Val (OK, setInteger 8).
Proof. exact fc_meets. Qed.
Example C12_case_value : eval pl_intel fc_cx (s2l "AVG(10, 2*3) ; rest") 10 OK = Val (setInteger 8, OK, s2l "; rest", 10).
Proof. vm_compute. reflexivity. Qed.

(* Inside a larger expression: the function a call finds does to the evaluator's stack what
   [computes] says, so that the grammar of C18 takes the call as the value of the body. *)
Theorem C12_call_in_expression : forall depth s loc sym delim name params body pl,
  later empty_store s -> known_syntax s -> defined name params body pl s -> NoDup params ->
  exists fn, c_function (caller (S depth) s loc sym delim) name = Some fn /\ f_nargs fn = Z.of_nat (length params) /\
    computes fn (fun vals => answer_of (eval pl (caller depth s loc (bound params vals sym) delim) body 10 OK)).
Proof. exact C12_computes. Qed.
Print Assumptions C12_call_in_expression.

(* A call with another number of arguments is refused, whatever the body. *)
Theorem C12_wrong_count_refused_partial : forall f depth s loc sym delim name params body pl a vals b0 b1 b2 b3 t rest,
  In f tree_families -> later empty_store s -> known_syntax s ->
  defined name params body pl s -> NoDup params ->
  is_name name -> ~ reserved f name -> p_function (fam_pl f) name = None ->
  let cx := caller (S depth) s loc sym delim in
  quiet cx -> blanks b0 -> blanks b1 -> blanks b2 -> blanks b3 -> ends cx rest ->
  derives_args f cx a t (41 :: b3 ++ rest) -> well_nested_args a -> args_value_slots a <= 8 -> args_operator_slots a <= 6 ->
  values_of a = Val (OK, vals) -> length vals <> length params ->
  exists u, eval (fam_pl f) cx (b0 ++ name ++ b1 ++ 40 :: b2 ++ t) 10 OK =
    Val (v_undef, if (length params <? length vals)%nat then TOO_MANY_FUNC_ARGUMENT else TOO_FEW_FUNC_ARGUMENT, u, 10).
Proof. exact C12_count. Qed.
Print Assumptions C12_wrong_count_refused_partial.

(* A function without parameters, called as a whole expression, gives the value of its body. *)
Theorem C12_call_without_arguments_partial : forall f f' depth s loc sym delim name body b0 b1 b2 b3 rest eb bb tb rest',
  In f tree_families -> In f' tree_families -> later empty_store s ->
  defined name [] body (fam_pl f') s ->
  is_name name -> ~ reserved f name -> p_function (fam_pl f) name = None ->
  let cx := caller (S depth) s loc sym delim in
  quiet cx -> blanks b0 -> blanks b1 -> blanks b2 -> blanks b3 -> ends cx rest -> known_syntax s ->
  let cx' := caller depth s loc sym delim in
  body = bb ++ tb -> blanks bb -> derives f' cx' eb tb rest' -> well_nested eb -> ends cx' rest' -> value_slots eb <= 8 -> operator_slots eb <= 8 ->
  match value_of eb with
  | Val (OK, v) => exists b, blanks b /\ eval (fam_pl f) cx (b0 ++ name ++ b1 ++ 40 :: b2 ++ 41 :: b3 ++ rest) 10 OK = Val (v, OK, b ++ rest, 10)
  | Val (x, _) => exists u, eval (fam_pl f) cx (b0 ++ name ++ b1 ++ 40 :: b2 ++ 41 :: b3 ++ rest) 10 OK = Val (v_undef, x, u, 10)
  | UB => eval (fam_pl f) cx (b0 ++ name ++ b1 ++ 40 :: b2 ++ 41 :: b3 ++ rest) 10 OK = UB
  | OOB => eval (fam_pl f) cx (b0 ++ name ++ b1 ++ 40 :: b2 ++ 41 :: b3 ++ rest) 10 OK = OOB
  | FLOAT => eval (fam_pl f) cx (b0 ++ name ++ b1 ++ 40 :: b2 ++ 41 :: b3 ++ rest) 10 OK = FLOAT
  | FUEL => eval (fam_pl f) cx (b0 ++ name ++ b1 ++ 40 :: b2 ++ 41 :: b3 ++ rest) 10 OK = FUEL
  end.
Proof. exact C12_nullary. Qed.
Print Assumptions C12_call_without_arguments_partial.

(* Evaluation of any text ends, with any arguments and in all 22 syntax combinations, when no
   function mentions itself, directly or through others: it needs no more nested calls than the
   ranks of the functions the text mentions, and more room for calls changes nothing. *)
Theorem C12_evaluation_ends_partial : forall s rank pl d loc sym delim t rdx e,
  later empty_store s -> known_syntax s -> ranked s rank -> In pl all_families ->
  (forall n, hasFunction n s = true -> mentioned n t -> (rank n < d)%nat) ->
  eval pl (caller d s loc sym delim) t rdx e <> FUEL /\
  forall d', (d <= d')%nat -> eval pl (caller d' s loc sym delim) t rdx e = eval pl (caller d s loc sym delim) t rdx e.
Proof. intros s rank pl d loc sym delim t rdx e R K A. now apply C12_ends with (rank := rank). Qed.
Print Assumptions C12_evaluation_ends_partial.
Definition ex_nest : store :=
  snd (internFunction (s2l "TWICE") [s2l "X"] (s2l "AVG(X, X)*2") pl_intel fc_store).
Definition ex_rank (n : text) : nat := if iequals n (s2l "TWICE") then 1 else 0.
Example C12_ends_case : later empty_store ex_nest /\ known_syntax ex_nest /\ ranked ex_nest ex_rank /\
  (forall n, hasFunction n ex_nest = true -> mentioned n (s2l "TWICE(4)+1") -> (ex_rank n < 2)%nat) /\
  eval pl_intel (caller 2 ex_nest 0 fc_sym 0) (s2l "TWICE(4)+1") 10 OK = Val (setInteger 9, OK, [], 10).
Proof.
  assert (internFunction (s2l "TWICE") [s2l "X"] (s2l "AVG(X, X)*2") pl_intel fc_store = (OK, ex_nest)) as IF by reflexivity.
  assert (later empty_store ex_nest) as R by exact (L_function _ _ _ _ _ _ _ _ (proj1 (proj2 fc_meets)) IF).
  assert (D : forall name params body pl, defined name params body pl ex_nest -> pl = pl_intel /\
    (name = s2l "AVG" /\ body = fc_body \/ name = s2l "TWICE" /\ body = s2l "AVG(X, X)*2")).
  { intros name params body pl X. pose proof (defined_find _ _ _ _ _ X) as F.
    change (st_functions ex_nest) with [(s2l "AVG", mkFD fc_body (paramsAt fc_params) pl_intel); (s2l "TWICE", mkFD (s2l "AVG(X, X)*2") (paramsAt [s2l "X"]) pl_intel)] in F.
    cbn [m_find] in F. destruct (P_Symbols.key_eqb_spec name (s2l "AVG")) as [->|]; [injection F as <- _ <-; auto|].
    destruct (P_Symbols.key_eqb_spec name (s2l "TWICE")) as [->|]; [injection F as <- _ <-; auto|discriminate]. }
  split; [exact R|]. split; [intros name params body pl X; destruct (D _ _ _ _ X) as [-> _]; cbn; tauto|].
  assert (forall o b, mentioned o b -> o = s2l "TWICE" -> In 84 b) as MT.
  { intros o b (x & y & ->) ->. apply in_or_app. right. cbn. tauto. }
  assert (forall o b, mentioned o b -> o = s2l "AVG" -> In 86 b) as MV.
  { intros o b (x & y & ->) ->. apply in_or_app. right. cbn. tauto. }
  assert (forall o, hasFunction o ex_nest = true -> o = s2l "AVG" \/ o = s2l "TWICE") as HF.
  { intros o. unfold hasFunction. change (st_functions ex_nest) with [(s2l "AVG", mkFD fc_body (paramsAt fc_params) pl_intel); (s2l "TWICE", mkFD (s2l "AVG(X, X)*2") (paramsAt [s2l "X"]) pl_intel)].
    cbn [m_find]. destruct (P_Symbols.key_eqb_spec o (s2l "AVG")); [auto|]. destruct (P_Symbols.key_eqb_spec o (s2l "TWICE")); [auto|discriminate]. }
  split; [|split; [|vm_compute; reflexivity]].
  - intros name params body pl other X H M. destruct (D _ _ _ _ X) as [_ [[-> ->]|[-> ->]]].
    + exfalso. destruct (HF _ H) as [O|O]; [pose proof (MV _ _ M O) as C|pose proof (MT _ _ M O) as C]; cbn in C; intuition discriminate.
    + destruct (HF _ H) as [O|O]; [subst other; vm_compute; repeat constructor|pose proof (MT _ _ M O) as C; cbn in C; intuition discriminate].
  - intros n H _. destruct (HF _ H) as [-> | ->]; vm_compute; repeat constructor.
Qed.

(* A function that mentions itself is accepted, and its evaluation ends at no depth of calls. *)
Theorem C12_recursion_refuted : exists s, internFunction (s2l "F") [s2l "X"] (s2l "F(10)") pl_intel empty_store = (OK, s) /\
  forall depth, eval pl_intel (caller depth s 0 (fun _ => None) 0) (s2l "F(10)") 10 OK = FUEL.
Proof. exists rc_store. split; [reflexivity|]. exact rc_eval. Qed.
Print Assumptions C12_recursion_refuted.

(* A function's body sees the parameters of the function that calls it: with Y = 100, G(1) is 101,
   but F(5), whose body is G(1), is 6, because F's parameter is called Y. *)
Theorem C12_dynamic_scope_refuted : exists s1 s2 sym,
  internFunction (s2l "G") [s2l "A"] (s2l "A+Y") pl_intel empty_store = (OK, s1) /\
  internFunction (s2l "F") [s2l "Y"] (s2l "G(1)") pl_intel s1 = (OK, s2) /\
  sym (s2l "Y") = Some (setUnsigned 100) /\
  eval pl_intel (caller 5 s2 0 sym 0) (s2l "G(1)") 10 OK = Val (setInteger 101, OK, [], 10) /\
  eval pl_intel (caller 5 s2 0 sym 0) (s2l "F(5)") 10 OK = Val (setInteger 6, OK, [], 10).
Proof.
  eexists. eexists. exists (fun n => if iequals n (s2l "Y") then Some (setUnsigned 100) else None).
  repeat split; vm_compute; reflexivity.
Qed.
Print Assumptions C12_dynamic_scope_refuted.

(* A parameter named twice counts once: the function cannot be called with the arguments its
   definition lists, and with fewer it takes a value of the surrounding expression for an argument:
   50+F(1) adds F(50), which is 51. *)
Theorem C12_repeated_parameter_refuted : exists s,
  internFunction (s2l "F") [s2l "X"; s2l "X"] (s2l "X+1") pl_intel empty_store = (OK, s) /\
  eval pl_intel (caller 5 s 0 (fun _ => None) 0) (s2l "F(1,2)") 10 OK = Val (v_undef, TOO_MANY_FUNC_ARGUMENT, [], 10) /\
  eval pl_intel (caller 5 s 0 (fun _ => None) 0) (s2l "50+F(1)") 10 OK = Val (setInteger 101, OK, [], 10).
Proof. eexists. split; [reflexivity|]. split; vm_compute; reflexivity. Qed.
Print Assumptions C12_repeated_parameter_refuted.

(* What follows the expression in a body is ignored. *)
Theorem C12_rest_of_body_refuted : exists s,
  internFunction (s2l "F") [s2l "X"] (s2l "X ) garbage (") pl_intel empty_store = (OK, s) /\
  eval pl_intel (caller 5 s 0 (fun _ => None) 0) (s2l "F(7)") 10 OK = Val (setUnsigned 7, OK, [], 10).
Proof. eexists. split; [reflexivity|]. vm_compute; reflexivity. Qed.
Print Assumptions C12_rest_of_body_refuted.

(* A function without parameters cannot be called where a value stands before the call. *)
Theorem C12_no_arguments_in_expression_refuted : exists s,
  internFunction (s2l "F") [] (s2l "7") pl_intel empty_store = (OK, s) /\
  eval pl_intel (caller 5 s 0 (fun _ => None) 0) (s2l "F()+1") 10 OK = Val (setInteger 8, OK, [], 10) /\
  eval pl_intel (caller 5 s 0 (fun _ => None) 0) (s2l "1+F()") 10 OK = Val (v_undef, TOO_MANY_FUNC_ARGUMENT, [], 10).
Proof. eexists. split; [reflexivity|]. split; vm_compute; reflexivity. Qed.
Print Assumptions C12_no_arguments_in_expression_refuted.

(* ------------------------------------------------------------ C49 *)
(* The answer for any text, in all 22 syntax combinations and with any functions, depends only on the
   location, the delimiter and what is known under the names that stand in the text. *)
Theorem C49_depends_on_names_in_text : forall pl cx1 cx2 t rdx e, In pl all_families ->
  c_location cx1 = c_location cx2 -> c_delim cx1 = c_delim cx2 ->
  (forall n, mentioned n t -> c_symbol cx1 n = c_symbol cx2 n) ->
  (forall n, mentioned n t -> c_function cx1 n = c_function cx2 n) ->
  eval pl cx1 t rdx e = eval pl cx2 t rdx e.
Proof.
  intros pl cx1 cx2 t rdx e I HL HD HS HF. apply eval_agree; try assumption. intros n N. rewrite (HF n N). apply ofeq_refl.
Qed.
Print Assumptions C49_depends_on_names_in_text.
Example C49_case : exists cx1 cx2, c_symbol cx1 (s2l "X") <> c_symbol cx2 (s2l "X") /\
  c_location cx1 = c_location cx2 /\ c_delim cx1 = c_delim cx2 /\
  (forall n, mentioned n (s2l "A+2*B") -> c_symbol cx1 n = c_symbol cx2 n) /\
  (forall n, mentioned n (s2l "A+2*B") -> c_function cx1 n = c_function cx2 n).
Proof.
  set (two := fun n : text => if list_eq_dec Z.eq_dec n (s2l "A") then Some (setUnsigned 1) else if list_eq_dec Z.eq_dec n (s2l "B") then Some (setUnsigned 2) else None).
  exists (mkC 5 two (fun _ => None) 0), (mkC 5 (fun n => if list_eq_dec Z.eq_dec n (s2l "X") then Some (setUnsigned 9) else two n) (fun _ => None) 0).
  split; [vm_compute; discriminate|]. split; [reflexivity|]. split; [reflexivity|]. split; [|reflexivity].
  intros n (a & b & E). cbn [c_symbol]. destruct (list_eq_dec Z.eq_dec n (s2l "X")) as [->|_]; [|reflexivity].
  exfalso. assert (In 88 (s2l "A+2*B")) as K by (rewrite E; apply in_or_app; right; cbn; tauto). cbn in K. intuition discriminate.
Qed.
(* Functions count by what they answer: a definition made elsewhere, of a symbol or of a function
   that neither the text nor, through its functions, their bodies mention, changes nothing. *)
Theorem C49_same_answers_same_value : forall pl cx1 cx2 t rdx e, In pl all_families ->
  c_location cx1 = c_location cx2 -> c_delim cx1 = c_delim cx2 ->
  (forall n, mentioned n t -> c_symbol cx1 n = c_symbol cx2 n) ->
  (forall n, mentioned n t ->
     match c_function cx1 n, c_function cx2 n with
     | Some f, Some g => f_nargs f = f_nargs g /\ forall s r, f_eval f s r = f_eval g s r
     | None, None => True
     | _, _ => False
     end) ->
  eval pl cx1 t rdx e = eval pl cx2 t rdx e.
Proof. intros pl cx1 cx2 t rdx e I HL HD HS HF. exact (eval_agree pl cx1 cx2 t rdx e I HL HD HS HF). Qed.
Print Assumptions C49_same_answers_same_value.
