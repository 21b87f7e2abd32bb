(** Specification: the bytes of a text, and what is left of a file of which the last
    bytes are missing (C107). *)
From Coq Require Import String.
From Verif Require Import Base Str KicadFile Said FileErr SpellSpec TornSpec Bytes.
Open Scope string_scope. Open Scope list_scope. Open Scope N_scope.

(** Unicode scalar values: no surrogates *)
Definition scalar (c : N) : Prop := c < 55296 \/ 57344 <= c < 1114112.
(** A character and its bytes; the shortest form only *)
Inductive coded : N -> bytes -> Prop :=
| cd_1 c : c < 128 -> coded c [c]
| cd_2 a b : a < 32 -> b < 64 -> 128 <= a * 64 + b -> coded (a * 64 + b) [192 + a; 128 + b]
| cd_3 a b c : a < 16 -> b < 64 -> c < 64 -> 2048 <= a * 4096 + b * 64 + c -> scalar (a * 4096 + b * 64 + c) ->
    coded (a * 4096 + b * 64 + c) [224 + a; 128 + b; 128 + c]
| cd_4 a b c d : a < 8 -> b < 64 -> c < 64 -> d < 64 -> 65536 <= a * 262144 + b * 4096 + c * 64 + d < 1114112 ->
    coded (a * 262144 + b * 4096 + c * 64 + d) [240 + a; 128 + b; 128 + c; 128 + d].
Inductive utf8 : str -> bytes -> Prop :=
| u_nil : utf8 [] []
| u_cons c s x b : coded c x -> utf8 s b -> utf8 (c :: s) (x ++ b).
Definition no_text (b : bytes) : Prop := forall s, ~ utf8 s b.

(** Opening a file of which [q] is missing at the end, that was read as [f]: the cut may be
    inside a character, more than white space may be missing, or only white space *)
Definition tree_kind (f : kicad_file) : Prop := match f with KModule _ | KLayout _ | KFpLibTable _ => True | _ => False end.
Definition refusal (n : str) (x : expected) : res kicad_file :=
  match x with XModule | XLayout | XFpLibTable => Err ESexp | XSchematic | XSymbolLib | XProject => Err EOther | XAny => Ok (KUnknown n) end.
Inductive after_loss (n : str) (x : expected) (p q : bytes) (f : kicad_file) : res kicad_file -> Prop :=
| al_char : no_text p -> no_text q -> after_loss n x p q f (Err EIo)
| al_more s w : utf8 s p -> utf8 w q -> ~ blank_text w -> after_loss n x p q f (refusal n x)
| al_none s w : utf8 s p -> utf8 w q -> blank_text w -> after_loss n x p q f (Ok f).

(** A save at the level of bytes *)
Definition only_file (n : str) (d d' : disk) : Prop := forall k, k <> n -> d' k = d k.
Inductive store_ends (d d' : disk) (n t : str) : told unit -> Prop :=
| se_done b : utf8 t b -> d' n = Some b -> store_ends d d' n t (TFine tt)
| se_kept why : d' n = d n -> store_ends d d' n t (TSays (lit "create error in file '" ++ n ++ lit "': " ++ why))
| se_part p q why : utf8 t (p ++ q) -> d' n = Some p -> store_ends d d' n t (TSays (lit "write error in file '" ++ n ++ lit "': " ++ why)).
Definition opens_as {A} (read : files -> str -> res A) (d d' : disk) (n : str) (saved : A) : Prop :=
  read (seen d') n = Ok saved \/ read (seen d') n = read (seen d) n \/ read (seen d') n = Err ESexp \/ read (seen d') n = Err EIo.
