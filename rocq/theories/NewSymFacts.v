(** A new symbol as a text (lemma for C46). *)
From Coq Require Import String.
From Verif Require Import Base Str Num F64 F64Text CutSpec SchData SchReadSpec SymData SymOps SymReadSpec.
Open Scope string_scope. Open Scope list_scope.
Lemma zero_text : f64_of_str (lit "0") = Some fzero.
Proof. vm_compute. reflexivity. Qed.
Lemma new_symbol_text name reference a d :
  line_words d (lit "DEF" :: name :: reference :: map lit ["0"; "0"; "N"; "N"; "1"; "F"; "N"]) ->
  symbol_text [a; lit "#"; d; lit "DRAW"; lit "ENDDRAW"; lit "ENDDEF"; lit "#"] (symbol_new name reference).
Proof.
  intros W. apply (sym_lines a d _ [] [] [] [] (symbol_new name reference) W); try reflexivity.
  - exists (lit "0"). split; [reflexivity|exact zero_text].
  - exists "N". split; [reflexivity|right; left; reflexivity].
  - exists "N". split; [reflexivity|right; left; reflexivity].
  - exists (lit "1"). split; reflexivity.
  - exists "F". split; [reflexivity|right; left; reflexivity].
  - exists "N". split; [reflexivity|right; left; reflexivity].
  - constructor.
  - constructor.
  - constructor.
  - constructor.
  - intros [].
Qed.
