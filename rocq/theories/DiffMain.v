(** What an edit changes in the text (lemmas for C86, C87). *)
From Coq Require Import String Lia.
From Verif Require Import Base Str StrFacts Num F64 F64Text Sexp FpData FpLayer FpSer FpOps LyData LySer LyOps LySpec LyOpsFacts LyNetFacts Formatter DocSpec DocText TextSpec TextMain TextDocs DiffSpec DiffTree DiffFacts DiffMove DiffHole.
Open Scope string_scope. Open Scope list_scope.

Lemma names_pieces nq n l : exists ps, length ps = S (length (layout_names l)) /\
  forall l', ly_header l' = ly_header l -> map hide_names (ly_elements l') = map hide_names (ly_elements l) ->
    layout_to_string nq l' n = weave ps (map (atom nq) (layout_names l')) ++ [10%N].
Proof. exact (board_pieces n_element net_names hide_names n_element_plain n_element_marks n_element_blank nq n l). Qed.
Lemma rename_text nq n old new l l' : change_net_name old new l = Ok l' -> exists ps,
  length ps = S (length (layout_names l))
  /\ layout_to_string nq l n = weave ps (map (atom nq) (layout_names l)) ++ [10%N]
  /\ layout_to_string nq l' n = weave ps (map (fun s => atom nq (if str_eqb s old then new else s)) (layout_names l)) ++ [10%N].
Proof.
  intros E. destruct (change_net_name_spec old new l) as (l2 & E2 & N & H & J). rewrite E in E2. injection E2 as <-.
  destruct (names_pieces nq n l) as (ps & L & K). exists ps. split; [exact L|]. split; [now apply K|]. rewrite (K l' J H), N, map_map. reflexivity.
Qed.
Lemma update_text nq n u l l' : update_net_names u l = (l', None) -> exists ps,
  length ps = S (length (layout_names l))
  /\ layout_to_string nq l n = weave ps (map (atom nq) (layout_names l)) ++ [10%N]
  /\ layout_to_string nq l' n = weave ps (map (fun s => atom nq (fst (u s))) (layout_names l)) ++ [10%N].
Proof.
  intros E. destruct (update_names_ok u l l' E) as (_ & N & H & J).
  destruct (names_pieces nq n l) as (ps & L & K). exists ps. split; [exact L|]. split; [now apply K|]. rewrite (K l' J H), N, map_map. reflexivity.
Qed.
Lemma update_fails_text nq n u l l' k : update_net_names u l = (l', Some k) -> exists ps a x b,
  layout_names l = a ++ x :: b /\ Forall (fun s => snd (u s) = None) a /\ snd (u x) = Some k
  /\ length ps = S (length (layout_names l))
  /\ layout_to_string nq l n = weave ps (map (atom nq) (a ++ x :: b)) ++ [10%N]
  /\ layout_to_string nq l' n = weave ps (map (fun s => atom nq (fst (u s))) (a ++ [x]) ++ map (atom nq) b) ++ [10%N].
Proof.
  intros E. destruct (update_names_err u l l' k E) as ((a & x & b & N & F & X & N') & H & J).
  destruct (names_pieces nq n l) as (ps & L & K). exists ps, a, x, b. split; [exact N|]. split; [exact F|]. split; [exact X|]. split; [exact L|].
  split; [rewrite <- N; now apply K|]. rewrite (K l' J H), N', !map_app, map_map. cbn [map]. now rewrite <- app_assoc.
Qed.
Lemma rename_net_text nq n old new m : exists ps,
  length ps = S (length (flat_map pad_net_names (m_elements m)))
  /\ module_to_string nq m n = weave ps (map (atom nq) (flat_map pad_net_names (m_elements m)))
  /\ module_to_string nq (module_rename_net old new m) n
     = weave ps (map (fun s => atom nq (if str_eqb s old then new else s)) (flat_map pad_net_names (m_elements m))).
Proof.
  destruct (rename_net_views old new m) as (A & B & C). destruct (fp_pieces n_fp pad_net_names hide_pad n_fp_plain n_fp_marks n_fp_blank nq n m) as (ps & L & K).
  exists ps. split; [exact L|]. split; [now apply K|]. rewrite (K _ A B), C, map_map. reflexivity.
Qed.
Lemma set_reference_text nq n old new m : exists ps,
  length ps = S (length (flat_map ref_value (m_elements m)))
  /\ module_to_string nq m n = weave ps (map (atom nq) (flat_map ref_value (m_elements m)))
  /\ module_to_string nq (set_reference old new m) n
     = weave ps (map (fun s => atom nq (if str_eqb s old then new else s)) (flat_map ref_value (m_elements m))).
Proof.
  destruct (set_reference_views old new m) as (A & B & C). destruct (fp_pieces r_fp ref_value hide_ref r_fp_plain r_fp_marks r_fp_blank nq n m) as (ps & L & K).
  exists ps. split; [exact L|]. split; [now apply K|]. rewrite (K _ A B), C, map_map. reflexivity.
Qed.

Lemma moved_pieces nq n l : exists ps, length ps = S (2 * length (flat_map positions (ly_elements l))) /\
  forall l', ly_header l' = ly_header l -> map wipe (ly_elements l') = map wipe (ly_elements l) ->
    layout_to_string nq l' n
    = weave ps (map (fun x => atom nq (f64_to_str x)) (coords (flat_map positions (ly_elements l')))) ++ [10%N].
Proof.
  destruct (board_pieces p_element (fun e => shown (positions e)) wipe p_element_plain p_element_marks p_element_blank nq n l) as (ps & L & K).
  exists ps. rewrite <- shown_flat in L. split.
  - rewrite L. f_equal. unfold shown. rewrite map_length. generalize (flat_map positions (ly_elements l)) as q. clear.
    induction q as [|x q IH]; [reflexivity|]. change (coords (x :: q)) with (fst x :: snd x :: coords q). cbn [length]. rewrite IH. lia.
  - intros l' H E. rewrite (K l' H E), <- shown_flat. unfold shown. now rewrite map_map.
Qed.
Lemma adjust_text nq n x y l : exists ps, length ps = S (2 * length (flat_map positions (ly_elements l)))
  /\ layout_to_string nq l n = weave ps (map (fun c => atom nq (f64_to_str c)) (coords (flat_map positions (ly_elements l)))) ++ [10%N]
  /\ layout_to_string nq (adjust_layout x y l) n
     = weave ps (map (fun c => atom nq (f64_to_str c)) (coords (map (fun p => (fadd (fst p) x, fadd (snd p) y)) (flat_map positions (ly_elements l))))) ++ [10%N].
Proof.
  destruct (adjust_layout_spec x y l) as (H & W & P). destruct (moved_pieces nq n l) as (ps & L & K). exists ps. split; [exact L|]. split; [now apply K|].
  rewrite (K _ H W). do 4 f_equal.
  assert (X : forall (g : f64 * f64 -> f64 * f64) es, flat_map positions es = concat (map positions es)
     /\ map g (flat_map positions es) = concat (map (fun e => map g (positions e)) es)).
  { intros g es. split; [now rewrite flat_map_concat_map|]. rewrite flat_map_concat_map, concat_map, map_map. reflexivity. }
  destruct (X (fun p => (fadd (fst p) x, fadd (snd p) y)) (ly_elements l)) as [_ ->].
  destruct (X (fun p => p) (ly_elements (adjust_layout x y l))) as [-> _]. now rewrite P.
Qed.

Lemma modify_text nq n l r f : usual_layout l = true ->
  (exists l1 m l2 l', first_carrier r (ly_elements l) l1 m l2 /\ modify_module l r f = (l', None)
    /\ exists A B X X', module_to_string nq m (n + 1) = X ++ [10%N; 41%N] /\ module_to_string nq (f m) (n + 1) = X' ++ [10%N; 41%N]
       /\ layout_to_string nq l n = A ++ X ++ new_lines 1 (n + 1) ++ [41%N] ++ B
       /\ layout_to_string nq l' n = A ++ X' ++ new_lines 1 (n + 1) ++ [41%N] ++ B)
  \/ ((forall m, In (YModule m) (ly_elements l) -> ~ carries r m) /\ exists k, modify_module l r f = (l, Some k)).
Proof.
  intros U. destruct (modify_module_spec l r f) as [(l1 & m & l2 & C & E)|N]; [left|right; exact N].
  assert (El : l = with_elements l (l1 ++ YModule m :: l2)) by (destruct C as [C _]; rewrite <- C; now destruct l).
  eexists l1, m, l2, _. split; [exact C|]. split; [exact E|].
  rewrite El in U. destruct (module_hole nq n l l1 l2 m U) as (A & B & H).
  destruct (module_body nq m (n + 1)) as (X & HX), (module_body nq (f m) (n + 1)) as (X' & HX').
  assert (M1 : module_to_string nq m (n + 1) = X ++ [10%N; 41%N]) by (rewrite module_alone; apply HX).
  assert (M2 : module_to_string nq (f m) (n + 1) = X' ++ [10%N; 41%N]) by (rewrite module_alone; apply HX').
  exists A, B, X, X'. split; [exact M1|]. split; [exact M2|]. split; [rewrite El; now apply H|]. exact (H _ _ M2).
Qed.
Lemma add_net_text nq n l num name : usual_layout l = true ->
  exists A, layout_to_string nq l n = A ++ [10%N; 41%N; 10%N]
    /\ layout_to_string nq (add_net num name l) n =
       A ++ (if ends_in_module (ly_elements l) then new_lines 1 n else []) ++ new_lines 1 (n + 1)
         ++ [40%N] ++ atom nq (lit "net") ++ [32%N] ++ atom nq (show_Z num) ++ [32%N] ++ atom nq name ++ [41%N] ++ [10%N; 41%N; 10%N].
Proof. rewrite <- ended_iff. exact (net_more nq n l num name). Qed.
Lemma add_class_text nq n l c : usual_layout l = true ->
  exists A, layout_to_string nq l n = A ++ [10%N; 41%N; 10%N]
    /\ layout_to_string nq (add_netclass c l) n =
       A ++ (if ends_in_module (ly_elements l) then new_lines 1 n else []) ++ new_lines 2 (n + 1)
         ++ lay nq [lit "kicad_pcb"] (n + 1) (new_lines 1 (n + 1)) (ser_net_class c) ++ [10%N; 41%N; 10%N].
Proof. rewrite <- ended_iff. exact (class_more nq n l c). Qed.
Lemma setup_text nq n l name v :
  let l' := with_setup l (setup_update name v (ly_setup l)) in
  (exists a w b ps, map se_value1 (su_elements (ly_setup l)) = a ++ w :: b
     /\ nth_error (map se_name (su_elements (ly_setup l))) (length a) = Some name
     /\ ~ In name (firstn (length a) (map se_name (su_elements (ly_setup l))))
     /\ length ps = S (length (a ++ w :: b))
     /\ layout_to_string nq l n = weave ps (map (atom nq) (a ++ w :: b)) ++ [10%N]
     /\ layout_to_string nq l' n = weave ps (map (atom nq) (a ++ v :: b)) ++ [10%N])
  \/ (~ In name (map se_name (su_elements (ly_setup l)))
      /\ (usual_layout l = true -> plain_name name = true ->
          exists A B, layout_to_string nq l n = A ++ B
            /\ layout_to_string nq l' n = A ++ new_lines 1 (n + 2) ++ [40%N] ++ atom nq name ++ [32%N] ++ atom nq v ++ [41%N] ++ B)).
Proof.
  cbv zeta. destruct (setup_get (ly_setup l) name) eqn:G.
  - left. destruct (setup_update_present name v (ly_setup l)) as (l1 & e & l2 & E & Hn & N & U); [congruence|].
    destruct (setup_pieces nq n l) as (ps & L & K). rewrite U, E in *.
    exists (map se_value1 l1), (se_value1 e), (map se_value1 l2), ps. rewrite map_length.
    split; [now rewrite map_app|]. rewrite map_app. cbn [map]. split; [rewrite nth_error_app2 by (rewrite map_length; apply le_n); rewrite map_length, Nat.sub_diag, Hn; reflexivity|].
    split. { rewrite <- (map_length se_name l1) at 1. rewrite firstn_app, firstn_all, Nat.sub_diag. cbn [firstn]. rewrite app_nil_r. intros I. apply in_map_iff in I as (x & X & I). exact (N x I X). }
    split. { rewrite L, !app_length. cbn [length]. now rewrite !map_length. }
    split.
    + assert (Q : with_setup l (mk_setup (l1 ++ e :: l2) (su_plot (ly_setup l))) = l) by (rewrite <- E; destruct l as [? ? ? ? [? ?] ? ?]; reflexivity).
      transitivity (layout_to_string nq (with_setup l (mk_setup (l1 ++ e :: l2) (su_plot (ly_setup l)))) n); [now rewrite Q|]. rewrite K by reflexivity. now rewrite !map_app, !map_map; cbn [map]; rewrite !map_map.
    + rewrite K. * now rewrite !map_app, !map_map; cbn [map se_value1]; rewrite !map_map.
      * rewrite !map_app. cbn [map]. unfold bare at 2 5. cbn [se_name se_value2]. now rewrite Hn.
  - right. split.
    + intros I. apply in_map_iff in I as (x & X & I). revert G. unfold setup_get. induction (su_elements (ly_setup l)) as [|y r IH]; [destruct I|]. cbn [find_map].
      destruct (str_eqb_spec (se_name y) name) as [Y|Y]; [discriminate|]. destruct I as [->|I]; [contradiction|]. auto. 
    + intros U P. rewrite (setup_update_absent name v (ly_setup l) G). exact (setup_more nq n l name v U P).
Qed.
