(** Property theorems: library tables (C08), the quote-aware splitter (C11),
    the sort key of references (C42). *)
From Coq Require Import String.
From Verif Require Import Base Str Num Sexp FpLibTable LibFns LibSpec LibFacts DecSpec RefFacts.
Open Scope string_scope. Open Scope list_scope.

(** ** C08 *)
Theorem C08_table_roundtrip : forall t, de_fp_lib_table (ser_fp_lib_table t) = Ok t.
Proof. exact rt_fp_lib_table. Qed.
Print Assumptions C08_table_roundtrip.
Example C08_ex :
  de_fp_lib_table (SList [a_lit "fp_lib_table";
    SList [a_lit "lib"; SList [a_lit "name"; a_lit "N"]; SList [a_lit "type"; a_lit "T"]; SList [a_lit "uri"; a_lit "U"];
           SList [a_lit "options"; a_lit ""]; SList [a_lit "descr"; a_lit "a b"]]])
  = Ok [mk_flib (lit "N") (lit "T") (lit "U") [] (lit "a b")].
Proof. reflexivity. Qed.
(** The written document lists the libraries in order with their five strings. *)
Theorem C08_document : forall t, exists l,
  ser_fp_lib_table t = SList (a_lit "fp_lib_table" :: l) /\
  Forall2 (fun x e => e = SList [a_lit "lib"; SList [a_lit "name"; SStr (fb_name x)]; SList [a_lit "type"; SStr (fb_type x)];
     SList [a_lit "uri"; SStr (fb_uri x)]; SList [a_lit "options"; SStr (fb_options x)]; SList [a_lit "descr"; SStr (fb_descr x)]]) t l.
Proof.
  intros t. exists (map ser_flib t). split; [reflexivity|]. induction t; constructor; auto.
Qed.
Print Assumptions C08_document.
(** Not every accepted document is reproduced: further elements of a library
    (such as a "disabled" mark) are dropped without an error. *)
Theorem C08_extra_refuted : exists s l, de_flib s = Ok l /\ ser_flib l <> s.
Proof. exact flib_extra. Qed.
Print Assumptions C08_extra_refuted.

(** ** C11 *)
Theorem C11_one_blank : forall l, forallb piece_ok l = true ->
  split_quote_aware (one_blank l) = Ok (map piece_value l).
Proof. exact split_one_blank. Qed.
Print Assumptions C11_one_blank.
Example C11_one_blank_ex :
  let l := [Plain (lit "F"); Plain (lit "0"); Quoted (lit "a b"); Quoted []; Plain (lit "H")] in
  forallb piece_ok l = true /\
  one_blank l = lit "F 0 " ++ [34%N] ++ lit "a b" ++ [34%N; 32%N; 34%N; 34%N] ++ lit " H" /\
  split_quote_aware (one_blank l) = Ok [lit "F"; lit "0"; lit "a b"; []; lit "H"].
Proof. vm_compute. auto. Qed.

(** Any number of blanks before, between and behind; words may mix plain and
    quoted pieces. *)
Theorem C11_words : forall k l w m, spaced_ok l = true -> word_ok w = true ->
  split_quote_aware (blanks k ++ spaced l ++ word_text w ++ blanks m) = Ok (values l ++ [word_value w]).
Proof. exact split_words. Qed.
Print Assumptions C11_words.
Theorem C11_blank_line : forall k, split_quote_aware (blanks k) = Ok [].
Proof. exact split_blank. Qed.
Print Assumptions C11_blank_line.
Example C11_words_ex :
  split_quote_aware (blanks 2 ++ spaced [([Plain (lit "a"); Quoted (lit "b c")], 1%nat)] ++ word_text [Quoted []] ++ blanks 1)
  = Ok [lit "ab c"; []].
Proof. reflexivity. Qed.

(** With a count: that many words, then the rest of the line untouched. *)
Theorem C11_count : forall l rest, forallb word_ok l = true ->
  split_quote_aware_n (length l) (spaced (map (fun w => (w, 0%nat)) l) ++ rest)
  = Ok (map word_value l ++ match rest with [] => [] | _ => [rest] end).
Proof. exact split_n_rest. Qed.
Print Assumptions C11_count.
Theorem C11_count_short : forall n l w, spaced_ok l = true -> word_ok w = true -> (S (length l) < n)%nat ->
  split_quote_aware_n n (spaced (map (fun p => (fst p, 0%nat)) l) ++ word_text w) = Err EOther.
Proof. exact split_n_few. Qed.
Print Assumptions C11_count_short.
Example C11_count_ex :
  split_quote_aware_n 2 (lit "a b  c d") = Ok [lit "a"; lit "b"; lit " c d"] /\
  split_quote_aware_n 3 (lit "a b") = Err EOther.
Proof. split; reflexivity. Qed.
(** A value that holds a quote is not recovered: the format has no escape. *)
Theorem C11_quote_refuted : exists w, forallb (fun c => negb (N.eqb c 32)) w = true /\
  split_quote_aware (34%N :: w ++ [34%N]) <> Ok [w].
Proof. exists [97%N; 34%N; 98%N]. split; [reflexivity|]. vm_compute. discriminate. Qed.
Print Assumptions C11_quote_refuted.

(** ** C42 *)
Theorem C42_total : forall r, r <> [] ->
  exists k, reference_ord r = Ok k /\ hd 0%N r = fst k /\ (0 <= snd k < 2 ^ 63)%Z.
Proof. exact reference_ord_total. Qed.
Print Assumptions C42_total.
Theorem C42_value : forall c p n, forallb (fun c => no_digit c && no_comma c) (c :: p) = true ->
  (0 <= n < 2 ^ 63)%Z -> reference_ord (c :: p ++ show_Z n) = Ok (c, n).
Proof. exact reference_ord_value. Qed.
Print Assumptions C42_value.
Theorem C42_order : forall c p q m n, forallb (fun c => no_digit c && no_comma c) (c :: p ++ q) = true ->
  (0 <= m < 2 ^ 63)%Z -> (0 <= n < 2 ^ 63)%Z ->
  exists a b, reference_ord (c :: p ++ show_Z m) = Ok a /\ reference_ord (c :: q ++ show_Z n) = Ok b
    /\ (key_le a b <-> (m <= n)%Z).
Proof. exact reference_ord_order. Qed.
Print Assumptions C42_order.
(** The key of every reference: its first letter and the number made of all digits
    before the first comma [a]; 0 without digits and for numbers from 2^63 on. *)
Theorem C42_exact : forall c s a b, c :: s = a ++ b -> ~ In 44%N a -> (b = [] \/ exists t, b = 44%N :: t) ->
  let n := dec (filter (fun d => (48 <=? d) && (d <=? 57))%N a) in reference_ord (c :: s) = Ok (c, if (n <? 2 ^ 63)%Z then n else 0%Z).
Proof. exact reference_ord_exact. Qed.
Print Assumptions C42_exact.
Example C42_exact_ex : ~ In 44%N (lit "RN1A02") /\ dec (filter (fun d => (48 <=? d) && (d <=? 57))%N (lit "RN1A02")) = 102%Z.
Proof. split; [vm_compute; intuition discriminate|reflexivity]. Qed.
(** Of a list of references the first one counts. *)
Theorem C42_list : forall a b, a <> [] -> reference_ord (a ++ 44%N :: b) = reference_ord a.
Proof. exact reference_ord_list. Qed.
Print Assumptions C42_list.
Example C42_ex :
  reference_ord (lit "R12") = Ok (82%N, 12%Z) /\ reference_ord (lit "R2,R9") = Ok (82%N, 2%Z) /\
  key_le (82%N, 2%Z) (82%N, 12%Z).
Proof. repeat split. right. cbn. split; [reflexivity|]. discriminate. Qed.
Theorem C42_defined_refuted : exists r, reference_ord r = Panic.
Proof. exists []. reflexivity. Qed.
Print Assumptions C42_defined_refuted.
(** Only the first letter of the prefix counts, digits behind further letters
    are glued on, and a number beyond 64 bits counts as 0. *)
Theorem C42_prefix_refuted : exists a b, a <> b /\
  (exists k, reference_ord a = Ok k /\ reference_ord b = Ok k) /\
  forallb (fun c => no_digit c) (removelast a) = true /\ forallb (fun c => no_digit c) (removelast b) = true.
Proof. exists (lit "R1"), (lit "RN1"). repeat split; try discriminate. eexists; split; reflexivity. Qed.
Print Assumptions C42_prefix_refuted.
Theorem C42_suffix_refuted :
  exists a b n, reference_ord a = Ok (85%N, n) /\ reference_ord (a ++ b) <> reference_ord a /\ hd 0%N b = 65%N.
Proof. exists (lit "U1"), (lit "A2"), 1%Z. repeat split. discriminate. Qed.
Print Assumptions C42_suffix_refuted.
Theorem C42_overflow_refuted : exists p m n, (0 <= m < n)%Z /\
  reference_ord (p ++ show_Z n) = Ok (82%N, 0%Z) /\ reference_ord (p ++ show_Z m) = Ok (82%N, m) /\ (0 < m)%Z.
Proof. exists (lit "R"), 1%Z, (2 ^ 63)%Z. split; [split; [discriminate|reflexivity]|]. repeat split. Qed.
Print Assumptions C42_overflow_refuted.
