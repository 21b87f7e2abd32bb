(** Boards and library tables that stay as they are (C80). *)
From Coq Require Import String Lia.
From Verif Require Import Base Str StrFacts Num NumFacts F64 F64Facts F64Text Sexp FpData FpLayer FpSer FpWf LyData LySer LyDe LyWf FpLibTable MeanSpec MeanFacts MeanBoard.
From Verif Require Import StaySpec StayFacts StayFp.
Open Scope string_scope. Open Scope list_scope.

Lemma i_area : img ser_area yes area.
Proof.
  apply (i_form "area"). eapply p_map; [imgs| |].
  - intros (a & b & c & d) _. exists (mk_area a b c d). split; reflexivity.
  - intros [a b c d] _. exists (a, (b, (c, d))). split; reflexivity.
Qed.
#[export] Hint Resolve i_area : img.
Lemma i_general : img ser_general general_ok general.
Proof.
  apply (i_form "general"). eapply p_map; [imgs| |].
  - intros (li & nc & ar & th & dr & tr & zo & mo & ne) H. cbn [fst snd] in H. gather. exists (mk_general li nc ar th dr tr zo mo ne). split; [reflexivity|].
    unfold general_ok. cbn [ge_links ge_no_connects ge_drawings ge_tracks ge_zones ge_modules ge_nets]. oky.
  - intros [li nc ar th dr tr zo mo ne] H. unfold general_ok in H. cbn [ge_links ge_no_connects ge_drawings ge_tracks ge_zones ge_modules ge_nets] in H. gather.
    exists (li, (nc, (ar, (th, (dr, (tr, (zo, (mo, ne)))))))). split; [reflexivity|]. oky.
Qed.
Lemma i_ly_type : img (fun t => a_lit (show_ly_type t)) yes (words ["signal"; "power"; "mixed"; "jumper"; "user"]).
Proof.
  apply i_words; [intros []; cbn; tauto|]. intros k [<-|[<-|[<-|[<-|[<-|[]]]]]]; [now exists TSignal|now exists TPower|now exists TMixed|now exists TJumper|now exists TUser].
Qed.
#[export] Hint Resolve i_general i_ly_type : img.
Lemma i_board_layer : img ser_ly_layer ly_layer_ok board_layer.
Proof.
  apply i_bare. eapply p_map; [imgs| |].
  - intros (n & l & t & h) H. cbn [fst snd] in H. gather. exists (mk_ly_layer n l t h). split; [reflexivity|]. unfold ly_layer_ok. cbn [ll_num ll_layer]. oky.
  - intros [n l t h] H. unfold ly_layer_ok in H. cbn [ll_num ll_layer] in H. gather. exists (n, (l, (t, h))). split; [reflexivity|]. oky.
Qed.
Lemma i_not_plot : img SStr (fun n => negb (str_eqb n (lit "pcbplotparams"))) not_plot.
Proof.
  intros s. unfold not_plot. split; intros (n & -> & H); exists n; (split; [reflexivity|]); destruct (str_eqb_spec n (lit "pcbplotparams")); try reflexivity; try contradiction; try discriminate. assumption.
Qed.
#[export] Hint Resolve i_board_layer i_not_plot : img.
Lemma i_setting_any : img ser_setup_element yes (setting text).
Proof.
  apply i_bare. eapply p_map; [imgs| |].
  - intros (n & a & b) _. exists (mk_se n a b). split; reflexivity.
  - intros [n a b] _. exists (n, (a, b)). split; [reflexivity|]. oky.
Qed.
Lemma i_setting : img ser_setup_element setup_name_ok (setting not_plot).
Proof.
  apply i_bare. eapply p_map; [imgs| |].
  - intros (n & a & b) H. cbn [fst snd] in H. gather. exists (mk_se n a b). split; [reflexivity|]. assumption.
  - intros [n a b] H. exists (n, (a, b)). split; [reflexivity|]. unfold setup_name_ok in H. cbn [se_name] in H. oky.
Qed.
#[export] Hint Resolve i_setting i_setting_any : img.
Lemma i_plot : img (fun l => node "pcbplotparams" (map ser_setup_element l)) yes (form "pcbplotparams" [many (setting text)]).
Proof. eapply i_map; [apply i_form; imgs| |]; intros l _; exists l; (split; [reflexivity|]); [reflexivity|apply all_yes]. Qed.
#[export] Hint Resolve i_plot : img.
Lemma i_setup : img ser_setup setup_ok setup.
Proof.
  apply (i_form "setup"). eapply p_map; [imgs| |].
  - intros (e & p) H. cbn [fst snd] in H. gather. exists (mk_setup e p). split; [reflexivity|assumption].
  - intros [e p] H. exists (e, p). split; [reflexivity|]. unfold setup_ok in H. cbn [su_elements] in H. oky.
Qed.
#[export] Hint Resolve i_setup : img.
Lemma i_net_class : img ser_net_class yes net_class.
Proof.
  apply (i_form "net_class"). eapply p_map; [imgs| |].
  - intros (n & d & c & t & vd & vr & ud & ur & g & w & ns) _. exists (mk_nc n d c t vd vr ud ur g w ns). split; reflexivity.
  - intros [n d c t vd vr ud ur g w ns] _. exists (n, (d, (c, (t, (vd, (vr, (ud, (ur, (g, (w, ns)))))))))). split; [reflexivity|]. oky.
Qed.
Lemma c_stamp : cimg ser_tstamp yes maybe_stamp.
Proof.
  intros l. unfold maybe_stamp. rewrite (c_opt _ _ _ (i_has "tstamp" _ _ _ i_text) l). split; intros (o & -> & _); exists o; (split; [reflexivity|]); [reflexivity|apply opt_yes].
Qed.
Ltac imgs ::= repeat first [match goal with |- cimg _ _ maybe_stamp => apply c_stamp end | img_step].
Lemma i_gr_text : img ser_gr_text gr_text_ok gr_text.
Proof.
  apply (i_form "gr_text"). eapply p_map; [imgs| |].
  - intros (v & a & l & e & t) H. cbn [fst snd] in H. gather. exists (mk_grtext v a l e t). split; [reflexivity|]. unfold gr_text_ok. cbn [gt_at gt_layer gt_effects]. oky.
  - intros [v a l e t] H. unfold gr_text_ok in H. cbn [gt_at gt_layer gt_effects] in H. gather. exists (v, (a, (l, (e, t)))). split; [reflexivity|]. oky.
Qed.
#[export] Hint Resolve i_gr_text : img.
Lemma i_dimension : img ser_dimension (fun d => layer_ok (di_layer d) && gr_text_ok (di_text d))%bool dimension.
Proof.
  apply (i_form "dimension"). eapply p_map; [imgs| |].
  - intros (n & w & l & t & g & f1 & f2 & cb & a1 & a2 & a3 & a4) H. cbn [fst snd] in H. gather. exists (mk_dim n w l t g f1 f2 cb a1 a2 a3 a4). split; [reflexivity|].
    cbn [di_layer di_text]. oky.
  - intros [n w l t g f1 f2 cb a1 a2 a3 a4] H. cbn [di_layer di_text] in H. gather. exists (n, (w, (l, (t, (g, (f1, (f2, (cb, (a1, (a2, (a3, a4))))))))))). split; [reflexivity|]. oky.
Qed.
Lemma i_segment_mode : cimg (fun b : bool => when b [kv "mode" (a_lit "segment")]) yes (opt (has "mode" (words ["segment"]))).
Proof.
  intros l. assert (I : img (fun _ : unit => a_lit "segment") yes (words ["segment"])) by (apply i_words; [intros _; now left|]; intros k [<-|[]]; now exists tt).
  rewrite (c_opt _ _ _ (i_has "mode" _ _ _ I) l). split.
  - intros ([u|] & -> & _); [now exists true|now exists false].
  - intros ([] & -> & _); [now exists (Some tt)|now exists None].
Qed.
Lemma i_fill : img ser_fill fill_ok fill.
Proof.
  apply (i_form "fill"). eapply p_map.
  - eapply p_cons; [apply c_flag|]. eapply p_cons; [apply i_segment_mode|]. imgs.
  - intros (y & m & a & g & b & s & r) H. cbn [fst snd] in H. gather. exists (mk_fill y m a g b s (default fzero r)).
    unfold fill_ok. cbn [fi_filled fi_segment fi_arc_segments fi_gap fi_bridge fi_smoothing fi_radius fst snd].
    match goal with E : i64_ok a = true |- _ => rewrite E end.
    destruct r as [r|]; cbn [default opt_ok opt_list] in *; [|split; reflexivity].
    match goal with E : fneb r fzero = true |- _ => rewrite E; split; [reflexivity|now apply not_negzero] end.
  - intros [y m a g b s r] H. unfold fill_ok in H. cbn [fi_arc_segments fi_radius] in H. gather. unfold zero_ok in H0.
    exists (y, (m, (a, (g, (b, (s, if fneb r fzero then Some r else None)))))). cbn [fi_filled fi_segment fi_arc_segments fi_gap fi_bridge fi_smoothing fi_radius fst snd].
    split; [destruct (fneb r fzero); reflexivity|]. oky. destruct (fneb r fzero) eqn:E; [exact E|reflexivity].
Qed.
Lemma i_rule k : img (fun b => kv k (allowed b)) yes (rule k).
Proof.
  apply i_has. apply (i_words (fun b : bool => if b then "allowed" else "not_allowed")); [intros []; cbn; tauto|]. intros j [<-|[<-|[]]]; [now exists true|now exists false].
Qed.
#[export] Hint Resolve i_fill i_rule : img.
Lemma i_keepout : img ser_keepout yes keepout.
Proof.
  apply (i_form "keepout"). eapply p_map; [imgs| |].
  - intros (a & b & c) _. exists (mk_ko a b c). split; reflexivity.
  - intros [a b c] _. exists (a, (b, c)). split; reflexivity.
Qed.
#[export] Hint Resolve i_keepout : img.

Lemma parts_one p s : parts [one p] [s] <-> p s.
Proof.
  cbn [parts]. split.
  - intros (x & y & E & (z & -> & H) & ->). now injection E as <-.
  - intros H. exists [s], []. split; [reflexivity|]. split; [now exists s|reflexivity].
Qed.
Lemma parts_two p q l : parts [one p; one q] l <-> exists a b, l = [a; b] /\ p a /\ q b.
Proof.
  cbn [parts]. split.
  - intros (x & y & -> & (a & -> & A) & z & w & -> & (b & -> & B) & ->). now exists a, b.
  - intros (a & b & -> & A & B). exists [a], [b]. split; [reflexivity|]. split; [now exists a|]. exists [b], []. split; [reflexivity|]. split; [now exists b|reflexivity].
Qed.
Lemma parts_many p l : parts [many p] l <-> Forall p l.
Proof.
  cbn [parts]. split.
  - intros (x & y & -> & H & ->). now rewrite app_nil_r.
  - intros H. exists l, []. split; [now rewrite app_nil_r|]. split; [exact H|reflexivity].
Qed.
Definition roles : list (string * option xy_type) := [("xy", Some XXy); ("start", Some XStart); ("end", Some XEnd); ("size", Some XSize); ("center", Some XCenter); ("rect_delta", Some XRectDelta)].
Lemma role_some n t : choose roles None n = Some t -> exists k, In k (map fst roles) /\ n = lit k.
Proof.
  unfold roles. cbn [choose map fst].
  repeat match goal with |- context [str_eqb n (lit ?k)] => destruct (str_eqb_spec n (lit k)) as [E|]; [intros _; exists k; split; [cbn; tauto|exact E]|] end. discriminate.
Qed.
Lemma some_role k : In k (map fst roles) -> exists t, choose roles None (lit k) = Some t.
Proof. cbn [roles map fst In]. intros H. repeat destruct H as [<-|H]; [| | | | | |contradiction]; eexists; reflexivity. Qed.
Definition free_shape : shape := either (map read_point ["xy"; "start"; "end"; "size"; "center"; "rect_delta"]).
Lemma read_point_iff k s : read_point k s <-> exists a b, s = SList [SStr (lit k); SStr a; SStr b] /\ (exists x, f64_of_str a = Some x) /\ exists y, f64_of_str b = Some y.
Proof.
  unfold read_point, form. split.
  - intros (l & -> & H). apply parts_two in H as (a & b & -> & (ta & x & -> & X) & (tb & y & -> & Y)). exists ta, tb. split; [reflexivity|]. split; [now exists x|now exists y].
  - intros (a & b & -> & (x & X) & (y & Y)). eexists. split; [reflexivity|]. apply parts_two. exists (SStr a), (SStr b). split; [reflexivity|]. split; [exists a, x|exists b, y]; split; (reflexivity || assumption).
Qed.
Lemma free_point_iff s : free_shape s <-> exists p, free_point s = Some p.
Proof.
  unfold free_shape, either. split.
  - intros (p & I & H). apply in_map_iff in I as (k & <- & I). apply read_point_iff in H as (a & b & -> & (x & X) & (y & Y)).
    destruct (some_role k I) as (t & T). exists (mk_xy x y t). cbn [free_point]. rewrite X, Y. fold roles. now rewrite T.
  - intros (p & H). destruct s as [n|l|]; try discriminate. destruct l as [|[n| |] [|[a| |] [|[b| |] [|]]]]; try discriminate. cbn [free_point] in H.
    destruct (f64_of_str a) as [x|] eqn:X; [|discriminate]. destruct (f64_of_str b) as [y|] eqn:Y; [|discriminate]. fold roles in H. destruct (choose roles None n) as [t|] eqn:T; [|discriminate].
    apply role_some in T as (k & I & ->). exists (read_point k). split; [apply in_map_iff; now exists k|]. apply read_point_iff. exists a, b. split; [reflexivity|]. split; [now exists x|now exists y].
Qed.
Lemma free_points_iff l : Forall free_shape l <-> exists p, free_points l = Some p.
Proof.
  split.
  - intros H. induction H as [|s l H _ (q & Q)]; [now exists []|]. apply free_point_iff in H as (p & P). exists (p :: q). cbn [free_points]. now rewrite P, Q.
  - revert l. induction l as [|s l IH]; intros (p & H); [constructor|]. cbn [free_points] in H. destruct (free_point s) as [x|] eqn:X; [|discriminate].
    destruct (free_points l) as [q|] eqn:Q; [|discriminate]. constructor; [apply free_point_iff; now exists x|apply IH; now exists q].
Qed.
Lemma free_outline_iff k s : read_outline k s <-> exists p, free_outline k s = Some p.
Proof.
  unfold read_outline, has, form. split.
  - intros (l & -> & x & y & -> & (z & -> & m & -> & H) & ->). apply parts_many in H. apply free_points_iff in H as (p & P). exists p. cbn [app free_outline]. now rewrite !str_eqb_refl.
  - intros (p & H). destruct s as [n|l|]; try discriminate. destruct l as [|[n| |] [|[|[|[q| |] l]|] [|]]]; try discriminate. cbn [free_outline] in H.
    destruct (str_eqb_spec n (lit k)) as [->|]; [|discriminate]. destruct (str_eqb_spec q (lit "pts")) as [->|]; [|discriminate]. cbn [andb] in H.
    eexists. split; [reflexivity|]. apply parts_one. eexists. split; [reflexivity|]. apply parts_many. apply free_points_iff. now exists p.
Qed.
Lemma outline_false k s : is_ok (de_pts_in k s) = false <-> ~ read_outline k s.
Proof.
  rewrite free_outline_iff, outline_told. destruct (free_outline k s) as [p|]; cbn; split; try discriminate; try reflexivity.
  - intros H. exfalso. apply H. now exists p.
  - intros _ (p & H). discriminate H.
Qed.
Lemma i_zone_other : img (fun s => s) zone_other_ok zone_other.
Proof.
  intros s. unfold zone_other, zone_other_ok. rewrite either_iff. cbn [map]. rewrite !Exists_cons, Exists_nil.
  assert (E : (negb (is_ok (de_pts_in "polygon" s)) && negb (is_ok (de_pts_in "filled_polygon" s)) && negb (is_ok (de_pts_in "fill_segments" s)))%bool = true <->
    ~ (read_outline "polygon" s \/ read_outline "filled_polygon" s \/ read_outline "fill_segments" s \/ False)).
  { rewrite !andb_true_iff, !negb_true_iff, !outline_false. tauto. }
  split.
  - intros H. exists s. split; [reflexivity|]. now apply E.
  - intros (t & <- & H). now apply E.
Qed.
Lemma c_zone_other : cimg (fun l : list sexp => l) (forallb zone_other_ok) (many zone_other).
Proof.
  intros l. rewrite (c_many _ _ _ i_zone_other l). split; intros (x & -> & H); exists x; (split; [|exact H]); [apply map_id|now rewrite map_id].
Qed.
Lemma i_priority : img a_i (fun z => i64_ok z && (0 <? z)%Z)%bool (int (fun z => (0 < z)%Z)).
Proof. apply (i_int _ (fun z => (0 <? z)%Z)). intros z. lia. Qed.
Lemma i_hatch : img ser_hatch yes (form "hatch" [one text; one num]).
Proof.
  apply (i_form "hatch"). eapply p_map; [imgs| |].
  - intros (a & b) _. exists (mk_hatch a b). split; reflexivity.
  - intros [a b] _. exists (a, b). split; reflexivity.
Qed.
Lemma i_connect : img ser_connect yes (form "connect_pads" [opt text; one (has "clearance" num)]).
Proof.
  apply (i_form "connect_pads"). eapply p_map; [imgs| |].
  - intros (a & b) _. exists (mk_cp a b). split; reflexivity.
  - intros [a b] _. exists (a, b). split; [reflexivity|]. oky.
Qed.
#[export] Hint Resolve i_priority i_hatch i_connect : img.
Ltac imgs ::= repeat first [match goal with |- cimg _ _ maybe_stamp => apply c_stamp | |- cimg _ _ (many zone_other) => apply c_zone_other end | img_step].
Lemma pos_priority z : (0 <? z)%Z = true -> i64_ok z = true -> priority_ok z = true.
Proof. unfold priority_ok, i64_ok. lia. Qed.
Lemma i_zone : img ser_zone zone_ok zone.
Proof.
  apply (i_form "zone"). eapply p_map; [imgs| |].
  - intros (n & nn & l & t & h & pr & cn & mi & ko & fi & po & fp & sg & ot) H. cbn [fst snd] in H. gather.
    exists (mk_zone n nn l t h (default 0%Z pr) cn mi ko fi po fp sg ot). cbn [zo_net zo_net_name zo_layer zo_tstamp zo_hatch zo_priority zo_connect zo_min zo_keepout zo_fill zo_polygons zo_filled zo_segments zo_other fst snd].
    assert (P : priority_ok (default 0%Z pr) = true /\ when (0 <? default 0%Z pr)%Z [kv "priority" (a_i (default 0%Z pr))] = opt_list (fun a => kv "priority" (a_i a)) pr).
    { destruct pr as [z|]; [|split; reflexivity]. cbn [default opt_ok opt_list] in *. gather. match goal with E : (0 <? z)%Z = true, I : i64_ok z = true |- _ => rewrite E; split; [exact (pos_priority z E I)|reflexivity] end. }
    destruct P as [P1 P2]. split; [rewrite P2; reflexivity|]. unfold zone_ok. cbn [zo_net zo_layer zo_priority zo_fill zo_other]. oky.
  - intros [n nn l t h pr cn mi ko fi po fp sg ot] H. unfold zone_ok in H. cbn [zo_net zo_layer zo_priority zo_fill zo_other] in H. gather.
    exists (n, (nn, (l, (t, (h, (if (0 <? pr)%Z then Some pr else None, (cn, (mi, (ko, (fi, (po, (fp, (sg, ot))))))))))))).
    cbn [zo_net zo_net_name zo_layer zo_tstamp zo_hatch zo_priority zo_connect zo_min zo_keepout zo_fill zo_polygons zo_filled zo_segments zo_other fst snd].
    split; [destruct (0 <? pr)%Z; reflexivity|]. oky. destruct (0 <? pr)%Z eqn:E; [|reflexivity]. cbn [opt_ok]. rewrite E. unfold priority_ok in *. unfold i64_ok, i64_min in *. lia.
Qed.
Lemma i_gr_line : img ser_gr_line (fun l => layer_ok (gl_layer l)) gr_line.
Proof.
  apply (i_form "gr_line"). eapply p_map; [imgs| |].
  - intros (a & b & an & l & w & t) H. cbn [fst snd] in H. gather. exists (mk_grline a b an l w t). split; [reflexivity|assumption].
  - intros [a b an l w t] H. cbn [gl_layer] in H. exists (a, (b, (an, (l, (w, t))))). split; [reflexivity|]. oky.
Qed.
Lemma i_gr_arc : img ser_gr_arc (fun l => layer_ok (ga_layer l)) gr_arc.
Proof.
  apply (i_form "gr_arc"). eapply p_map; [imgs| |].
  - intros (a & b & an & l & w & t) H. cbn [fst snd] in H. gather. exists (mk_grarc a b an l w t). split; [reflexivity|assumption].
  - intros [a b an l w t] H. cbn [ga_layer] in H. exists (a, (b, (an, (l, (w, t))))). split; [reflexivity|]. oky.
Qed.
Lemma i_gr_circle : img ser_gr_circle (fun l => layer_ok (gc_layer l)) gr_circle.
Proof.
  apply (i_form "gr_circle"). eapply p_map; [imgs| |].
  - intros (a & b & l & w & t) H. cbn [fst snd] in H. gather. exists (mk_grcircle a b l w t). split; [reflexivity|assumption].
  - intros [a b l w t] H. cbn [gc_layer] in H. exists (a, (b, (l, (w, t)))). split; [reflexivity|]. oky.
Qed.
Lemma i_segment : img ser_segment (fun s => layer_ok (sg_layer s) && i64_ok (sg_net s))%bool segment.
Proof.
  apply (i_form "segment"). eapply p_map; [imgs| |].
  - intros (a & b & w & l & n & t & st) H. cbn [fst snd] in H. gather. exists (mk_seg a b w l n t st). split; [reflexivity|]. cbn [sg_layer sg_net]. oky.
  - intros [a b w l n t st] H. cbn [sg_layer sg_net] in H. gather. exists (a, (b, (w, (l, (n, (t, st)))))). split; [reflexivity|]. oky.
Qed.
Lemma i_via : img ser_via via_ok via.
Proof.
  apply (i_form "via"). eapply p_map; [imgs| |].
  - intros (b & m & a & s & d & l & n) H. cbn [fst snd] in H. gather. exists (mk_via b m a s (default fzero d) l n).
    unfold via_ok. cbn [vi_blind vi_micro vi_at vi_size vi_drill vi_layers vi_net fst snd].
    assert (D : zero_ok (default fzero d) = true /\ when (fneb (default fzero d) fzero) [kv "drill" (a_f (default fzero d))] = opt_list (fun a => kv "drill" (a_f a)) d).
    { destruct d as [d|]; cbn [default opt_ok opt_list] in *; [|split; reflexivity]. match goal with E : fneb d fzero = true |- _ => rewrite E; split; [now apply not_negzero|reflexivity] end. }
    destruct D as [D1 D2]. split; [rewrite D2; reflexivity|]. oky.
  - intros [b m a s d l n] H. unfold via_ok in H. cbn [vi_at vi_drill vi_layers vi_net] in H. gather.
    exists (b, (m, (a, (s, (if fneb d fzero then Some d else None, (l, n)))))). cbn [vi_blind vi_micro vi_at vi_size vi_drill vi_layers vi_net fst snd].
    split; [destruct (fneb d fzero); reflexivity|]. oky. destruct (fneb d fzero) eqn:E; [exact E|reflexivity].
Qed.
Lemma i_board_net : img ser_net (fun n => i64_ok (ne_num n)) net.
Proof.
  eapply i_map; [exact i_net| |].
  - intros [n t] H. exists (mk_net n t). split; [reflexivity|exact H].
  - intros [n t] H. exists (mk_fnet n t). split; [reflexivity|exact H].
Qed.
Lemma i_unknown : img (fun s => s) other_ok unknown.
Proof.
  intros s. unfold unknown. change board_names with layout_keys. assert (R : forall n, existsb (fun k => str_eqb n (lit k)) layout_keys = true <-> In n (map lit layout_keys)).
  { intros n. rewrite existsb_exists, in_map_iff. split; intros (k & A & B); exists k; [apply str_eqb_eq in B|]; split; try assumption; [now symmetry|subst n; apply str_eqb_refl]. }
  split.
  - intros (n & l & -> & H). eexists. split; [reflexivity|]. cbn [other_ok]. apply negb_true_iff. destruct (existsb _ layout_keys) eqn:E; [|reflexivity]. apply R in E. contradiction.
  - intros (t & <- & H). destruct s as [|[|[n| |] l]|]; try discriminate H. exists n, l. split; [reflexivity|]. cbn [other_ok] in H. apply negb_true_iff in H. intros I. apply R in I. congruence.
Qed.
Lemma kind_in {A B} (f : A -> sexp) ok p (c : A -> B) (g : B -> sexp) gok s : img f ok p -> (forall a, g (c a) = f a) -> (forall a, gok (c a) = ok a) -> p s -> exists b, s = g b /\ gok b = true.
Proof. intros I F G H. apply I in H as (a & -> & H). exists (c a). rewrite F, G. now split. Qed.
Lemma i_board_element : img ser_ly_element ly_element_ok board_element.
Proof.
  intros s. unfold board_element. rewrite either_iff. split.
  - rewrite !Exists_cons, Exists_nil. intros H. repeat (destruct H as [H|H]; [revert H|]); [| | | | | | | | | | | |contradiction].
    + apply (kind_in _ _ _ YModule _ _ _ i_footprint); reflexivity.
    + apply (kind_in _ _ _ YNet _ _ _ i_board_net); reflexivity.
    + apply (kind_in _ _ _ YNetClass _ _ _ i_net_class); reflexivity.
    + apply (kind_in _ _ _ YGrText _ _ _ i_gr_text); reflexivity.
    + apply (kind_in _ _ _ YGrLine _ _ _ i_gr_line); reflexivity.
    + apply (kind_in _ _ _ YGrArc _ _ _ i_gr_arc); reflexivity.
    + apply (kind_in _ _ _ YGrCircle _ _ _ i_gr_circle); reflexivity.
    + apply (kind_in _ _ _ YDimension _ _ _ i_dimension); reflexivity.
    + apply (kind_in _ _ _ YZone _ _ _ i_zone); reflexivity.
    + apply (kind_in _ _ _ YSegment _ _ _ i_segment); reflexivity.
    + apply (kind_in _ _ _ YVia _ _ _ i_via); reflexivity.
    + apply (kind_in _ _ _ YOther _ _ _ i_unknown); reflexivity.
  - intros (e & -> & H). destruct e as [m|n|n|t|l|a|c|d|g|v|z|o]; cbn [ly_element_ok ser_ly_element] in *.
    + nthp 0%nat. exact (img_out _ _ _ m i_footprint H).
    + nthp 1%nat. exact (img_out _ _ _ n i_board_net H).
    + nthp 2%nat. exact (img_out _ _ _ n i_net_class H).
    + nthp 3%nat. exact (img_out _ _ _ t i_gr_text H).
    + nthp 4%nat. exact (img_out _ _ _ l i_gr_line H).
    + nthp 5%nat. exact (img_out _ _ _ a i_gr_arc H).
    + nthp 6%nat. exact (img_out _ _ _ c i_gr_circle H).
    + nthp 7%nat. exact (img_out _ _ _ d i_dimension H).
    + nthp 9%nat. exact (img_out _ _ _ g i_segment H).
    + nthp 10%nat. exact (img_out _ _ _ v i_via H).
    + nthp 8%nat. exact (img_out _ _ _ z i_zone H).
    + nthp 11%nat. exact (img_out _ _ _ o i_unknown H).
Qed.
#[export] Hint Resolve i_board_element : img.
Lemma i_host : img (fun h => node "host" [SStr (ho_tool h); SStr (ho_build h)]) yes (form "host" [one text; one text]).
Proof.
  apply (i_form "host"). eapply p_map; [imgs| |].
  - intros (a & b) _. exists (mk_host a b). split; reflexivity.
  - intros [a b] _. exists (a, b). split; reflexivity.
Qed.
Lemma i_stack : img (fun l => node "layers" (map ser_ly_layer l)) (forallb ly_layer_ok) (form "layers" [many board_layer]).
Proof. apply (i_form "layers"). imgs. Qed.
#[export] Hint Resolve i_host i_stack : img.
Lemma i_board : img ser_layout layout_ok board.
Proof.
  apply (i_form "kicad_pcb"). eapply p_map; [imgs| |].
  - intros (v & h & g & p & l & s & e) H. cbn [fst snd] in H. gather. exists (mk_layout v h g p s l e). split; [reflexivity|].
    unfold layout_ok. cbn [ly_version ly_general ly_setup ly_layers ly_elements]. oky.
  - intros [v h g p s l e] H. unfold layout_ok in H. cbn [ly_version ly_general ly_setup ly_layers ly_elements] in H. gather. exists (v, (h, (g, (p, (l, (s, e)))))). split; [reflexivity|]. oky.
Qed.
Lemma i_library : img ser_flib yes library.
Proof.
  apply (i_form "lib"). eapply p_map; [imgs| |].
  - intros (a & b & c & d & e) _. exists (mk_flib a b c d e). split; reflexivity.
  - intros [a b c d e] _. exists (a, (b, (c, (d, e)))). split; reflexivity.
Qed.
#[export] Hint Resolve i_library : img.
Lemma i_table : img ser_fp_lib_table yes table.
Proof.
  apply (i_form "fp_lib_table"). eapply p_map; [imgs| |]; intros l _; exists l; (split; [reflexivity|]); [reflexivity|apply all_yes].
Qed.
