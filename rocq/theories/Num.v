(** The operations on C++ [double] used by the code, as one record.
    This is an ordinary record (not a module type): every model function takes
    the record as an argument, and theorems are stated for an instance (or for
    all of them). *)
Require Import ZArith.

Record Num : Type := mkNum {
  num   : Type;
  nadd  : num -> num -> num;      (* a + b *)
  nsub  : num -> num -> num;      (* a - b *)
  nmul  : num -> num -> num;      (* a * b *)
  ndiv  : num -> num -> num;      (* a / b *)
  nopp  : num -> num;             (* -a *)
  nabs  : num -> num;             (* std::abs (double) *)
  nsqrt : num -> num;             (* sqrt *)
  nsin  : num -> num;
  ncos  : num -> num;
  ntan  : num -> num;
  nfmin : num -> num -> num;      (* C99 fmin *)
  nlt   : num -> num -> bool;     (* a < b; also used for b > a *)
  neq   : num -> num -> bool;     (* a == b *)
  nZ    : Z -> num;               (* conversion of an integer to double *)
  ndec  : Z -> positive -> num;   (* the decimal literal m / 10^k as compiled *)
  npi   : num                     (* M_PI *)
}.
