(** Model of Rust's [f32]: IEEE-754 binary32 with rounding to nearest, ties to
    even, on the standard library's [SpecFloat] (precision 24, [emax] 128).
    Simplification: a single NaN.  Definitions only. *)
From Coq Require Import ZArith SpecFloat.
Local Open Scope Z_scope.

Definition f32 : Set := spec_float.

Definition f32_prec : Z := 24.
Definition f32_emax : Z := 128.

(** Well-formed binary32 data: what an [f32] variable can hold. *)
Definition f32_valid (x : f32) : bool := valid_binary f32_prec f32_emax x.

(** [x * y], [x / y], [x + y], [x - y]. *)
Definition f32_mul (x y : f32) : f32 := SFmul f32_prec f32_emax x y.
Definition f32_div (x y : f32) : f32 := SFdiv f32_prec f32_emax x y.
Definition f32_add (x y : f32) : f32 := SFadd f32_prec f32_emax x y.
Definition f32_sub (x y : f32) : f32 := SFsub f32_prec f32_emax x y.

(** Integer to float: [f32::from(i16)], [f32::from(u16)], [n as f32] for
    [u32]/[u64], and integer-valued literals such as [20.0]. *)
Definition f32_of_Z (z : Z) : f32 := binary_normalize f32_prec f32_emax z 0 false.

(** Literal [p/q] with integers [p], [q] below 2^24, e.g. [0.1]: the
    correctly rounded quotient. *)
Definition f32_frac (p q : Z) : f32 := f32_div (f32_of_Z p) (f32_of_Z q).

(** Clamp to the range of [i16]. *)
Definition clamp_i16 (z : Z) : Z := Z.max (-32768) (Z.min 32767 z).

(** [x as i16]: truncation towards zero, saturating, NaN to 0. *)
Definition f32_as_i16 (x : f32) : Z :=
  match x with
  | S754_nan => 0
  | S754_zero _ => 0
  | S754_infinity s => if s then -32768 else 32767
  | S754_finite s m e =>
      let mag := if 0 <=? e then Zpos m * 2 ^ e else Zpos m / 2 ^ (- e) in
      clamp_i16 (if s then - mag else mag)
  end.
