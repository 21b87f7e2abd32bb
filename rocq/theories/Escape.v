(** Readers that treat a backslash between quotes in one way or another (C109).

    How symbolic_expressions 5.0 reads a backslash between quotes is not seen in this
    repository. [read_sexp] (Formatter.v) takes it as a character like any other. The test
    tests/layout1.rs shows that the pair of a backslash and a quote does not end a word
    (layout1.kicad_pcb:1114) and that it is written back as it was. Here the reader has
    a parameter: between quotes, a backslash and the character [c] after it stand for
    [esc c] and never end the word. *)
From Coq Require Import String.
From Verif Require Import Base Str Sexp FpData FpDe LyData LyDe FpLibTable Formatter.
Open Scope string_scope. Open Scope list_scope.

(** [lex] of Formatter.v but for the backslash *)
Fixpoint lex_esc (esc : N -> str) (st : lst) (s : str) {struct s} : option (list tok) :=
  match s with
  | [] => match st with LNone => Some [] | LBare a => Some [At (rev a)] | LQuote _ => None end
  | c :: r =>
      match st with
      | LQuote a =>
          if N.eqb c 34 then option_map (cons (At (rev a))) (lex_esc esc LNone r)
          else if N.eqb c 92 then match r with [] => None | d :: r' => lex_esc esc (LQuote (rev (esc d) ++ a)) r' end
          else lex_esc esc (LQuote (c :: a)) r
      | _ =>
          let pre := match st with LBare a => [At (rev a)] | _ => [] end in
          if is_ws c then option_map (app pre) (lex_esc esc LNone r)
          else if N.eqb c 40 then option_map (app (pre ++ [LP])) (lex_esc esc LNone r)
          else if N.eqb c 41 then option_map (app (pre ++ [RP])) (lex_esc esc LNone r)
          else if N.eqb c 34 then option_map (app pre) (lex_esc esc (LQuote []) r)
          else lex_esc esc (LBare (c :: match st with LBare a => a | _ => [] end)) r
      end
  end.
Definition read_esc (esc : N -> str) (s : str) : res sexp :=
  match lex_esc esc LNone s with
  | Some ts => match build [] ts with Some (v, []) => Ok v | _ => Err ESexp end
  | None => Err ESexp
  end.
(** The pair is kept as it is. *)
Definition keep_pair (c : N) : str := [92%N; c].
(** The backslash is dropped, but backslash n is a newline. *)
Definition drop_backslash (c : N) : str := if N.eqb c 110 then [10%N] else [c].

(** [parse_module], [parse_layout] and [parse_table] (DocText.v) with such a reader *)
Definition module_esc (esc : N -> str) (s : str) : res module := do t <- read_esc esc s; de_module t.
Definition layout_esc (esc : N -> str) (s : str) : res layout := do t <- read_esc esc s; de_layout t.
Definition table_esc (esc : N -> str) (s : str) : res fp_lib_table := do t <- read_esc esc s; de_fp_lib_table t.
