(** Integer text: Display / from_str / hexadecimal. *)
From Verif Require Import Base Str.
Open Scope N_scope.

(** Digits of [n] in base [b], most significant first.  Fuel: the bit size of
    [n] bounds the number of digits for b >= 2. *)
Fixpoint to_digits_aux (fuel : nat) (b n : N) (acc : list N) : list N :=
  match fuel with
  | O => n :: acc
  | S k => if n <? b then n :: acc else to_digits_aux k b (n / b) (n mod b :: acc)
  end.
Definition to_digits (b n : N) : list N := to_digits_aux (N.size_nat n) b n [].

(** Value of a digit list. *)
Definition digits_val (b : N) (l : list N) : N := fold_left (fun a d => a * b + d) l 0.

(** Digit to character: 0-9 then upper case letters ([{}] and [{:X}]). *)
Definition digit_char (d : N) : N := if d <? 10 then 48 + d else 55 + d.

(** [char::to_digit]. *)
Definition char_digit (radix c : N) : option N :=
  let d := if (48 <=? c) && (c <=? 57) then Some (c - 48)
           else if (97 <=? c) && (c <=? 122) then Some (c - 87)
           else if (65 <=? c) && (c <=? 90) then Some (c - 55)
           else None in
  match d with
  | Some v => if v <? radix then Some v else None
  | None => None
  end.

Fixpoint digits_of_str (radix : N) (s : str) : option (list N) :=
  match s with
  | [] => Some []
  | c :: r =>
      match char_digit radix c, digits_of_str radix r with
      | Some d, Some ds => Some (d :: ds)
      | _, _ => None
      end
  end.

Definition show_N (n : N) : str := map digit_char (to_digits 10 n).
Definition show_hex (n : N) : str := map digit_char (to_digits 16 n).

(** [Display] for [i64]. *)
Definition show_Z (z : Z) : str :=
  if (z <? 0)%Z then 45 :: show_N (Z.abs_N z) else show_N (Z.abs_N z).

Definition i64_min : Z := (- 2 ^ 63)%Z.
Definition i64_max : Z := (2 ^ 63 - 1)%Z.
Definition i64_ok (z : Z) : bool := ((i64_min <=? z) && (z <=? i64_max))%Z.

(** [i64::from_str_radix] (and [i64::from_str] for radix 10): optional sign, at
    least one digit, error on overflow. *)
Definition parse_int (radix : N) (s : str) : option Z :=
  let '(neg, body) :=
    match s with
    | c :: r => if c =? 45 then (true, r) else if c =? 43 then (false, r) else (false, s)
    | [] => (false, [])
    end in
  match body with
  | [] => None
  | _ =>
      match digits_of_str radix body with
      | None => None
      | Some ds =>
          let v := Z.of_N (digits_val radix ds) in
          let z := if neg then (- v)%Z else v in
          if i64_ok z then Some z else None
      end
  end.

Definition i64_of_str (s : str) : option Z := parse_int 10 s.

(** [{:X}] on an [i64]: the two's complement bit pattern. *)
Definition show_hex64 (z : Z) : str := show_hex (Z.to_N (z mod 2 ^ 64)).

(** Rust's [%] on [i64] (sign of the dividend). *)
Definition rem64 (a b : Z) : Z := Z.rem a b.
