(** f64 text: [FromStr] and [Display]. *)
From Coq Require Import String.
From Coq Require Import Floats.SpecFloat.
From Flocq Require Import IEEE754.BinarySingleNaN.
From Verif Require Import Base Str Num F64.
Open Scope N_scope.

(** ** Reading *)

(** Working binary scale for the quotient d / den, den = 10^k.  Either 2^-1140,
    finer than 2^-1075 (the coarsest grid that contains every rounding boundary
    of binary64), or enough bits for the quotient to have at least 69 bits. *)
Definition dec_scale (d den k : Z) : Z :=
  Z.min 1140 (Z.max k (Z.log2 den - Z.log2 d + 70)).

(** The binary64 number nearest to [d * 10^e] (ties to even).
    For a negative exponent the quotient is computed on the grid 2^-dec_scale with a
    sticky bit for the remainder.  The two guards avoid computing powers that
    can only lead to overflow or to zero. *)
Definition f64_of_dec (d : N) (e : Z) : f64 :=
  if d =? 0 then fzero
  else
    let nd := Z.of_nat (length (to_digits 10 d)) in
    if (400 <? e + nd)%Z then finf false
    else if (e + nd <? -400)%Z then fzero
    else if (0 <=? e)%Z then
      binary_normalize 53 1024 _ _ mode_NE (Z.of_N d * 10 ^ e) 0 false
    else
      let den := (10 ^ (- e))%Z in
      let sc := dec_scale (Z.of_N d) den (- e) in
      let num := (Z.of_N d * 2 ^ sc)%Z in
      let q := (num / den)%Z in
      let sticky := if (num mod den =? 0)%Z then 0%Z else 1%Z in
      binary_normalize 53 1024 _ _ mode_NE (2 * q + sticky) (- sc - 1) false.

(** Longest prefix of decimal digits and the rest. *)
Fixpoint span_digits (s : str) : list N * str :=
  match s with
  | [] => ([], [])
  | c :: r =>
      match char_digit 10 c with
      | Some d => let '(ds, rest) := span_digits r in (d :: ds, rest)
      | None => ([], s)
      end
  end.

(** Exponent part after the mantissa: nothing, or e/E, optional sign, digits. *)
Definition parse_exp (s : str) : option Z :=
  match s with
  | [] => Some 0%Z
  | c :: r =>
      if (c =? 101) || (c =? 69) then
        let '(neg, body) :=
          match r with
          | x :: r' => if x =? 45 then (true, r') else if x =? 43 then (false, r') else (false, r)
          | [] => (false, [])
          end in
        match body with
        | [] => None
        | _ => match digits_of_str 10 body with
               | None => None
               | Some ds => let v := Z.of_N (digits_val 10 ds) in
                            Some (if neg then (- v)%Z else v)
               end
        end
      else None
  end.

(** Unsigned decimal: digits [. digits] [exponent], at least one digit. *)
Definition dec_of_str (s : str) : option (N * Z) :=
  let '(ip, r1) := span_digits s in
  let '(fp, r2) :=
    match r1 with
    | c :: r => if c =? 46 then span_digits r else ([], r1)
    | [] => ([], [])
    end in
  match ip ++ fp with
  | [] => None
  | ds => match parse_exp r2 with
          | None => None
          | Some e => Some (digits_val 10 ds, (e - Z.of_nat (length fp))%Z)
          end
  end.

Definition lower (s : str) : str := map lower_ascii s.

(** Unsigned part of [f64::from_str]. *)
Definition ufloat_of_str (s : str) : option f64 :=
  let l := lower s in
  if str_eqb l (lit "inf") || str_eqb l (lit "infinity") then Some (finf false)
  else if str_eqb l (lit "nan") then Some fnan
  else match dec_of_str s with
       | Some (d, e) => Some (f64_of_dec d e)
       | None => None
       end.

(** [f64::from_str]. *)
Definition f64_of_str (s : str) : option f64 :=
  match s with
  | [] => None
  | c :: r =>
      if c =? 45 then match ufloat_of_str r with Some x => Some (fneg x) | None => None end
      else if c =? 43 then ufloat_of_str r
      else ufloat_of_str s
  end.

(** ** Writing *)

(** Positional layout of [d * 10^e] without exponent: trailing zeros for
    [e >= 0], otherwise a decimal point with at least one digit before it. *)
Definition layout_dec (d : N) (e : Z) : str :=
  let ds := to_digits 10 d in
  if (0 <=? e)%Z then map digit_char ds ++ repeat 48 (Z.to_nat e)
  else
    let k := Z.to_nat (- e) in
    let padded := repeat 0 (S k - length ds) ++ ds in
    let ip := firstn (length padded - k) padded in
    let fp := skipn (length padded - k) padded in
    map digit_char ip ++ [46] ++ map digit_char fp.

(** Exact decimal value of m * 2^e as an integer times a power of ten. *)
Definition exact_dec (m : positive) (e : Z) : N * Z :=
  if (0 <=? e)%Z then (Z.to_N (Zpos m * 2 ^ e), 0%Z)
  else (Z.to_N (Zpos m * 5 ^ (- e)), e).

(** Remove trailing zeros (fuel = number of digits). *)
Fixpoint strip_zeros (fuel : nat) (d : N) (e : Z) : N * Z :=
  match fuel with
  | O => (d, e)
  | S k => if (d =? 0) then (d, e)
           else if d mod 10 =? 0 then strip_zeros k (d / 10) (e + 1)%Z else (d, e)
  end.

(** Try an [n]-digit decimal next to the exact value [d * 10^e] ([len] digits):
    the nearer neighbour first. *)
Definition shorter (x : f64) (d : N) (e : Z) (len n : nat) : option str :=
  let drop := (len - n)%nat in
  let p := 10 ^ N.of_nat drop in
  let q := d / p in
  let r := d mod p in
  let cand c := let '(c', e') := strip_zeros n c (e + Z.of_nat drop)%Z in layout_dec c' e' in
  let ok s := match ufloat_of_str s with Some y => fsame x y | None => false end in
  let '(a, b) := if 2 * r <? p then (q, q + 1) else (q + 1, q) in
  if ok (cand a) then Some (cand a) else if ok (cand b) then Some (cand b) else None.

Fixpoint first_short (x : f64) (d : N) (e : Z) (len : nat) (ns : list nat) : option str :=
  match ns with
  | [] => None
  | n :: r => match shorter x d e len n with
              | Some s => Some s
              | None => first_short x d e len r
              end
  end.

(** Shortest digits that read back as the same number, 17 at most; if none of
    those reads back (which does not happen for binary64, but nothing below
    relies on that) the exact expansion. *)
Definition show_pos (m : positive) (e : Z) (x : f64) : str :=
  let '(d0, e0) := exact_dec m e in
  let len0 := length (to_digits 10 d0) in
  let '(d, e1) := strip_zeros len0 d0 e0 in
  let len := length (to_digits 10 d) in
  match first_short x d e1 len (seq 1 17) with
  | Some s => s
  | None => layout_dec d0 e0
  end.

(** [Display] for [f64] (Rust >= 1.53 prints the sign of -0.0). *)
Definition f64_to_str (x : f64) : str :=
  match B2SF x with
  | S754_zero s => (if s then [45] else []) ++ lit "0"
  | S754_infinity s => (if s then [45] else []) ++ lit "inf"
  | S754_nan => lit "NaN"
  | S754_finite s m e => (if s then [45] else []) ++ show_pos m e (fabs x)
  end.

(** A float written in the Rust source as a literal. *)
Definition flit (s : string) : f64 :=
  match f64_of_str (lit s) with Some x => x | None => fnan end.
