(** Model of src/error_reporter.h.
    Simplification: the error position ([ErrorAt::_at]) is not modelled; it only affects where
    a message points to. *)
From Coq Require Import ZArith List Bool.
Import ListNotations.
Local Open Scope Z_scope.

(* error_reporter.h:27-95 enum Error *)
Inductive err : Set :=
| OK
| NO_MEMORY
| INTERNAL_ERROR
| UNKNOWN_POSTBYTE
| ILLEGAL_REGISTER
| ILLEGAL_OPERAND
| ILLEGAL_SIZE
| ILLEGAL_OPERAND_MODE
| ILLEGAL_SEGMENT
| BUFFER_OVERFLOW
| OVERWRAP_SEGMENT
| INVALID_INSTRUCTION
| SUBOPTIMAL_INSTRUCTION
| FLOAT_NOT_SUPPORTED
| UNKNOWN_INSTRUCTION
| UNKNOWN_REGISTER
| UNKNOWN_OPERAND
| OPERAND_NOT_ALLOWED
| OPERAND_TOO_FAR
| ILLEGAL_BIT_NUMBER
| GARBAGE_AT_END
| DUPLICATE_REGISTER
| REGISTER_NOT_ALLOWED
| MISSING_COMMA
| NOT_BIT_ADDRESSABLE
| OPERAND_NOT_ALIGNED
| REGISTER_NOT_ALIGNED
| OPCODE_HAS_NO_EFFECT
| REGISTERS_OVERLAPPED
| MISSING_CLOSING_BRACKET
| ILLEGAL_CONSTANT
| OVERFLOW_RANGE
| MISSING_CLOSING_PAREN
| MISSING_CLOSING_QUOTE
| UNKNOWN_ESCAPE_SEQUENCE
| OPERATOR_NOT_ASSOCIATIVE
| DIVIDE_BY_ZERO
| UNDEFINED_SYMBOL
| TOO_COMPLEX_EXPRESSION
| MISSING_FUNC_ARGUMENT
| TOO_FEW_FUNC_ARGUMENT
| TOO_MANY_FUNC_ARGUMENT
| DUPLICATE_FUNCTION
| NOT_AN_EXPECTED
| MISSING_OPERAND
| INTEGER_REQUIRED
| UNDERFLOW_RANGE
| UNKNOWN_DIRECTIVE
| ILLEGAL_LABEL
| DUPLICATE_LABEL
| MISSING_LABEL
| MISSING_CLOSING_DQUOTE
| UNSUPPORTED_CPU
| TOO_MANY_INCLUDE
| NO_INCLUDE_FOUND
| MISSING_CLOSING_DELIMITER
| END_ASSEMBLE
| UNKNOWN_OPTION.

(* the numeric values of the enumerators *)
Definition err_code (e : err) : Z :=
  match e with
  | OK => 0
  | NO_MEMORY => 2
  | INTERNAL_ERROR => 3
  | UNKNOWN_POSTBYTE => 4
  | ILLEGAL_REGISTER => 5
  | ILLEGAL_OPERAND => 6
  | ILLEGAL_SIZE => 7
  | ILLEGAL_OPERAND_MODE => 8
  | ILLEGAL_SEGMENT => 9
  | BUFFER_OVERFLOW => 10
  | OVERWRAP_SEGMENT => 11
  | INVALID_INSTRUCTION => 12
  | SUBOPTIMAL_INSTRUCTION => 13
  | FLOAT_NOT_SUPPORTED => 14
  | UNKNOWN_INSTRUCTION => 21
  | UNKNOWN_REGISTER => 22
  | UNKNOWN_OPERAND => 23
  | OPERAND_NOT_ALLOWED => 24
  | OPERAND_TOO_FAR => 25
  | ILLEGAL_BIT_NUMBER => 26
  | GARBAGE_AT_END => 27
  | DUPLICATE_REGISTER => 28
  | REGISTER_NOT_ALLOWED => 29
  | MISSING_COMMA => 30
  | NOT_BIT_ADDRESSABLE => 31
  | OPERAND_NOT_ALIGNED => 32
  | REGISTER_NOT_ALIGNED => 33
  | OPCODE_HAS_NO_EFFECT => 34
  | REGISTERS_OVERLAPPED => 35
  | MISSING_CLOSING_BRACKET => 36
  | ILLEGAL_CONSTANT => 100
  | OVERFLOW_RANGE => 101
  | MISSING_CLOSING_PAREN => 102
  | MISSING_CLOSING_QUOTE => 103
  | UNKNOWN_ESCAPE_SEQUENCE => 104
  | OPERATOR_NOT_ASSOCIATIVE => 105
  | DIVIDE_BY_ZERO => 106
  | UNDEFINED_SYMBOL => 107
  | TOO_COMPLEX_EXPRESSION => 108
  | MISSING_FUNC_ARGUMENT => 109
  | TOO_FEW_FUNC_ARGUMENT => 110
  | TOO_MANY_FUNC_ARGUMENT => 111
  | DUPLICATE_FUNCTION => 112
  | NOT_AN_EXPECTED => 113
  | MISSING_OPERAND => 114
  | INTEGER_REQUIRED => 115
  | UNDERFLOW_RANGE => 116
  | UNKNOWN_DIRECTIVE => 150
  | ILLEGAL_LABEL => 151
  | DUPLICATE_LABEL => 152
  | MISSING_LABEL => 153
  | MISSING_CLOSING_DQUOTE => 154
  | UNSUPPORTED_CPU => 155
  | TOO_MANY_INCLUDE => 156
  | NO_INCLUDE_FOUND => 157
  | MISSING_CLOSING_DELIMITER => 158
  | END_ASSEMBLE => 159
  | UNKNOWN_OPTION => 200
  end.

Definition err_eqb (a b : err) : bool := err_code a =? err_code b.

(* error_reporter.h:101 isOK *)
Definition isOK (e : err) : bool := err_eqb e OK.

(* error_reporter.h:107 setError: the new state *)
Definition setError (st e : err) : err := e.

(* error_reporter.h:108 setErrorIf (ErrorReporter): [_error ? _error : setError(error)] *)
Definition setErrorIf (st e : err) : err := if isOK st then setError st e else st.

(* error_reporter.h:124 hasError (ErrorAt) *)
Definition hasError (st : err) : bool := negb (isOK st) && negb (err_eqb st UNDEFINED_SYMBOL).

(* error_reporter.h:136-173 setErrorIf(at, error) of ErrorAt:
   [isOK() && error ? setError(at, error) : getError()] *)
Definition setErrorIfAt (st e : err) : err := if isOK st && negb (isOK e) then setError st e else st.
