(** The bytes of a file (/repo/src/util.rs): [read_to_string] (util.rs:17) takes only
    bytes that are UTF-8, and [write!] (util.rs:34) stores the bytes of the text.  The
    coding itself is that of the standard library ([char::encode_utf8] and
    [core::str::from_utf8], not part of /repo), modelled here from its definition. *)
From Coq Require Import String.
From Verif Require Import Base Str FpData LyData DocText KicadFile Said FileErr Disk.
Open Scope string_scope. Open Scope list_scope. Open Scope N_scope.

Definition bytes := list N.
(** The one to four bytes of a character *)
Definition char_bytes (c : N) : bytes :=
  if c <? 128 then [c]
  else if c <? 2048 then [192 + c / 64; 128 + c mod 64]
  else if c <? 65536 then [224 + c / 4096; 128 + c / 64 mod 64; 128 + c mod 64]
  else [240 + c / 262144; 128 + c / 4096 mod 64; 128 + c / 64 mod 64; 128 + c mod 64].
Definition text_bytes (s : str) : bytes := flat_map char_bytes s.

Definition in_range (lo hi b : N) : bool := (lo <=? b) && (b <=? hi).
(** A byte that is not the first one of a character *)
Definition later (b : N) : bool := in_range 128 191 b.
(** The first two bytes of a character of three and of four bytes
    (core::str::validations, [run_utf8_validation]) *)
Definition two_of_three (a b : N) : bool :=
  (a =? 224) && in_range 160 191 b || in_range 225 236 a && later b || (a =? 237) && in_range 128 159 b || in_range 238 239 a && later b.
Definition two_of_four (a b : N) : bool :=
  (a =? 240) && in_range 144 191 b || in_range 241 243 a && later b || (a =? 244) && in_range 128 143 b.
Definition before (c : N) (r : option str) : option str := option_map (cons c) r.
(** The text of the bytes, or [None] when they are not UTF-8 *)
Fixpoint bytes_text (l : bytes) : option str :=
  match l with
  | [] => Some []
  | a :: l1 =>
      if a <? 128 then before a (bytes_text l1) else
      match l1 with
      | [] => None
      | b :: l2 =>
          if in_range 194 223 a then (if later b then before ((a - 192) * 64 + (b - 128)) (bytes_text l2) else None) else
          match l2 with
          | [] => None
          | c :: l3 =>
              if in_range 224 239 a then
                (if two_of_three a b && later c then before (((a - 224) * 64 + (b - 128)) * 64 + (c - 128)) (bytes_text l3) else None) else
              match l3 with
              | [] => None
              | d :: l4 =>
                  if two_of_four a b && later c && later d
                  then before ((((a - 240) * 64 + (b - 128)) * 64 + (c - 128)) * 64 + (d - 128)) (bytes_text l4) else None
              end
          end
      end
  end.

(** A disk holds bytes; what [read_file] (util.rs:11-19) makes of them.  A file that
    cannot be opened and one that is not UTF-8 both give an error of the system
    (lib.rs:138 turns it into [EIo]); here neither is among the files that can be read. *)
Definition disk := str -> option bytes.
Definition seen (d : disk) : files := fun n => match d n with Some b => bytes_text b | None => None end.
Definition store (d : disk) (name : str) (b : bytes) : disk := fun n => if str_eqb n name then Some b else d n.
(** util.rs:22-44, with a part that may end anywhere, also inside a character *)
Definition try_store (d : disk) (a : answer) (name data : str) : disk * told unit :=
  match a with
  | Refuses why => (d, TSays (lit "create error in file '" ++ name ++ lit "': " ++ why))
  | Breaks k why => (store d name (firstn k (text_bytes data)), TSays (lit "write error in file '" ++ name ++ lit "': " ++ why))
  | Stores => (store d name (text_bytes data), TFine tt)
  end.
(** lib.rs:204-213 *)
Definition try_store_layout (nq : str -> bool) (d : disk) (a : answer) (l : layout) (name : str) : disk * told unit :=
  try_store d a name (layout_to_string nq l 0).
Definition try_store_module (nq : str -> bool) (d : disk) (a : answer) (m : module) (name : str) : disk * told unit :=
  try_store d a name (module_to_string nq m 0).
