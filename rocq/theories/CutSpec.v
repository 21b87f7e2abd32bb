(** Specification: how a line is cut into words (C11), once with blanks and quotes and
    once with white space only. *)
From Verif Require Import Base Str LibSpec.
Open Scope list_scope.

(** Blanks, words each followed by blanks, and a last word that may be missing, or may
    end in an open quote. *)
Definition unquoted (q : str) : bool := forallb (fun c => negb (N.eqb c 34)) q.
Inductive last_word : str -> list str -> Prop :=
| lw_none : last_word [] []
| lw_word w : word_ok w = true -> last_word (word_text w) [word_value w]
| lw_open w q : forallb piece_ok w = true -> unquoted q = true ->
    last_word (word_text w ++ 34%N :: q) (match w, q with [], [] => [] | _, _ => [word_value w ++ q] end).
Definition line_words (s : str) (v : list str) : Prop :=
  exists n l t e, s = blanks n ++ spaced l ++ t /\ spaced_ok l = true /\ last_word t e /\ v = values l ++ e.

(** Words between white space *)
Inductive ws_words : str -> list str -> Prop :=
| ws_none a : forallb is_ws a = true -> ws_words a []
| ws_last a w : forallb is_ws a = true -> w <> [] -> forallb (fun c => negb (is_ws c)) w = true -> ws_words (a ++ w) [w]
| ws_more a w c b v : forallb is_ws a = true -> w <> [] -> forallb (fun c => negb (is_ws c)) w = true -> is_ws c = true ->
    ws_words b v -> ws_words (a ++ w ++ c :: b) (w :: v).

(** Lines: each ends at a newline, of which a carriage return before it is part; the last
    one may lack it. *)
Definition without_cr (l k : str) : Prop := l = k ++ [13%N] \/ (l = k /\ forall m, l <> m ++ [13%N]).
Definition one_line (l : str) : bool := forallb (fun c => negb (N.eqb c 10)) l.
Inductive text_lines : str -> list str -> Prop :=
| tx_none : text_lines [] []
| tx_last l k : l <> [] -> one_line l = true -> without_cr l k -> text_lines l [k]
| tx_more l k s v : one_line l = true -> without_cr l k -> text_lines s v -> text_lines (l ++ 10%N :: s) (k :: v).
