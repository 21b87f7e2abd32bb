(** Concrete footprints used as examples and witnesses. *)
From Coq Require Import String Lia.
From Verif Require Import Base Str Num F64 F64Text Sexp FpData FpLayer FpSer FpDe FpWf
  StrFacts F64Facts SexpFacts FpFacts.
Open Scope string_scope. Open Scope list_scope.

Definition fl (s : string) : f64 := flit s.
Definition mkat x y r := mk_at (fl x) (fl y) (fl r).
Definition mkxy x y t := mk_xy (fl x) (fl y) t.
Definition f_cu := mk_layer SFront LCu.
Definition f_fab := mk_layer SFront LFab.
Definition f_silk := mk_layer SFront LSilkS.
Definition ex_effects := mk_effects (mk_font (mkxy "1" "1.5" XXy) (fl "0.15") true) (Some JMirror).
Definition ex_drill := mk_drill (Some (lit "oval")) (fl "0.8") (fl "1.2") (fl "0.1") (fl "0").
Definition ex_ref := mk_text (lit "reference") (lit "U1") (mkat "0" "-4" "0") f_silk ex_effects false.
Definition ex_val := mk_text (lit "value") (lit "MOSFET N") (mkat "0" "4" "90") f_fab ex_effects true.
Definition ex_pad1 :=
  mk_pad (lit "1") Pth Oval (mkxy "1.5" "1.6" XSize) None (mkat "-0.95" "0.885" "270")
         [mk_layer SBoth LCu; mk_layer SBoth LMask] (Some (mk_fnet 12 (lit "Net-(R1-Pad1)")))
         (Some 2%Z) (Some ex_drill) (Some (fl "0.1")) None (Some (fl "0.2")) (Some (fl "0.25")).
Definition ex_pad2 :=
  mk_pad (lit "2") Smd Rect (mkxy "1" "1" XSize) None (mkat "1" "0" "0")
         [f_cu; mk_layer SFront LPaste] None None None None None None None.
Definition ex_line := mk_line (mkxy "1" "2" XStart) (mkxy "-3" "0.5" XEnd) f_fab (fl "0.1").
Definition zxyz s := mk_xyz (fl s) (fl s) (fl s).
Definition ex_module : module :=
  mk_module (lit "QFN-32")
    [ELayer f_cu; ETEdit 1485440569; ETStamp 0; EDescr (lit "a part"); ETags (lit "x y");
     EAttr (lit "smd"); EFpText ex_ref; EFpText ex_val; EPad ex_pad1; EPad ex_pad2;
     EFpPoly (mk_poly [mkxy "0" "1" XXy; mkxy "1" "1" XXy] (fl "0.15") (mk_layer SDwgs LUser));
     EFpLine ex_line;
     EFpCircle (mk_circle (mkxy "1" "2" XCenter) (mkxy "3" "0.5" XEnd) f_fab (fl "0.1"));
     EFpArc (mk_arc (mkxy "1" "2" XStart) (mkxy "3" "0.5" XEnd) (fl "90") f_silk (fl "0.1"));
     EAt (mkat "10" "20" "180");
     EModel (mk_model (lit "c.wrl") (zxyz "0") (zxyz "1") (zxyz "90"));
     EClearance (fl "0.2"); ELocked].

Lemma ex_module_ok : module_ok ex_module = true.
Proof. vm_compute. reflexivity. Qed.
Lemma ex_reread : exists m, de_module (ser_module ex_module) = Ok m /\ module_clean m = true.
Proof. exists ex_module. split; [apply rt_module, ex_module_ok|vm_compute; reflexivity]. Qed.

Definition rd_sexp : sexp :=
  node "pad" [a_lit "1"; a_lit "smd"; a_lit "trapezoid"; node "at" [a_lit "0"; a_lit "0"];
              node "rect_delta" [a_lit "0"; a_lit "1"]].
Lemma rect_delta_witness : exists s p, de_pad s = Ok p /\ de_pad (ser_pad p) = Err ESexp.
Proof.
  exists rd_sexp. destruct (de_pad rd_sexp) as [p| |] eqn:E.
  - exists p. split; [reflexivity|]. apply pad_rect_delta_fails with (mk_xy (fl "0") (fl "1") XRectDelta).
    + assert (H : match de_pad rd_sexp with
                  | Ok p => match pa_rect_delta p with
                            | Some r => fsame (xy_x r) (fl "0") && fsame (xy_y r) (fl "1") && xy_type_eqb (xy_t r) XRectDelta
                            | None => false end
                  | _ => false end = true) by (vm_compute; reflexivity).
      rewrite E in H. destruct (pa_rect_delta p) as [[x y t]|]; [|discriminate].
      cbn [xy_x xy_y xy_t] in H. apply andb_prop in H as [H H3]. apply andb_prop in H as [H1 H2].
      apply fsame_eq in H1. apply fsame_eq in H2. apply xy_type_eqb_eq in H3. now subst.
    + reflexivity.
    + assert (H : match de_pad rd_sexp with Ok p => at_ok (pa_at p) | _ => false end = true)
        by (vm_compute; reflexivity). rewrite E in H. exact H.
    + assert (H : match de_pad rd_sexp with Ok p => opt_ok drill_ok (pa_drill p) | _ => false end = true)
        by (vm_compute; reflexivity). rewrite E in H. exact H.
  - assert (H : is_ok (de_pad rd_sexp) = true) by (vm_compute; reflexivity). rewrite E in H. discriminate.
  - assert (H : is_ok (de_pad rd_sexp) = true) by (vm_compute; reflexivity). rewrite E in H. discriminate.
Qed.

Lemma drill_exact' (shape : option str) (w h ox oy : f64) :
  shape = None \/ shape = Some (lit "oval") ->
  let hw := (fgtb h fzero && fgtb (fabs (fsub h w)) (flit "2.220446049250313e-16"))%bool in
  let ow := (fneb ox fzero || fneb oy fzero)%bool in
  let rest a b := mk_drill shape a b (if ow then ox else fzero) (if ow then oy else fzero) in
  de_drill (ser_drill (mk_drill shape w h ox oy)) =
    if fgtb w fzero then Ok (rest w (if hw then h else w))
    else if hw then Ok (rest h h)
    else Err ESexp.
Proof.
  intros Hs. cbv zeta. rewrite drill_exact.
  - cbn [dr_shape dr_width dr_height dr_ox dr_oy]. unfold height_written, offset_written.
    cbn [dr_shape dr_width dr_height dr_ox dr_oy].
    change (flit "2.220446049250313e-16") with f_eps.
    destruct (fgtb w fzero); [reflexivity|].
    destruct (fgtb h fzero && fgtb (fabs (fsub h w)) f_eps)%bool; reflexivity.
  - unfold shape_ok; cbn [dr_shape]. destruct Hs as [->| ->]; [reflexivity|apply str_eqb_refl].
Qed.

Lemma fsame_neq x y : fsame x y = false -> x <> y.
Proof. intros H ->. rewrite fsame_refl in H. discriminate. Qed.

Lemma drill_witnesses :
  (exists d d', de_drill (ser_drill d) = Ok d' /\ dr_width d' <> dr_width d)
  /\ (exists d, de_drill (ser_drill d) = Err ESexp)
  /\ (exists d d', fgtb (dr_width d) fzero = true /\ fgtb (dr_height d) fzero = true
       /\ de_drill (ser_drill d) = Ok d' /\ dr_height d' <> dr_height d).
Proof.
  split; [|split].
  - exists (mk_drill None fzero (flit "2") fzero fzero).
    exists (mk_drill None (flit "2") (flit "2") fzero fzero).
    split; [|cbn [dr_width]; apply fsame_neq; vm_compute; reflexivity].
    rewrite drill_exact' by (left; reflexivity). cbv zeta.
    change (fgtb fzero fzero) with false. change (fneb fzero fzero || fneb fzero fzero)%bool with false.
    replace (fgtb (flit "2") fzero && fgtb (fabs (fsub (flit "2") fzero)) (flit "2.220446049250313e-16"))%bool
      with true by (vm_compute; reflexivity). reflexivity.
  - exists (mk_drill None fzero fzero fzero fzero).
    rewrite drill_exact' by (left; reflexivity). cbv zeta. reflexivity.
  - exists (mk_drill None (flit "1") (flit "1.0000000000000002") fzero fzero).
    exists (mk_drill None (flit "1") (flit "1") fzero fzero).
    cbn [dr_width dr_height].
    split; [vm_compute; reflexivity|]. split; [vm_compute; reflexivity|].
    split; [|apply fsame_neq; vm_compute; reflexivity].
    rewrite drill_exact' by (left; reflexivity). cbv zeta.
    change (fneb fzero fzero || fneb fzero fzero)%bool with false.
    replace (fgtb (flit "1") fzero) with true by (vm_compute; reflexivity).
    replace (fgtb (flit "1.0000000000000002") fzero && _)%bool with false by (vm_compute; reflexivity).
    reflexivity.
Qed.

Lemma layer_rt_iff l :
  layer_of_str (show_layer l) = Some l <->
  match la_t l with
  | LOther s => ~ In 46%N s /\ ~ In s std_types
  | _ => True
  end.
Proof.
  rewrite layer_ok_iff. unfold layer_ok. destruct (la_t l); try tauto.
  rewrite andb_true_iff, negb_true_iff, forallb_forall.
  split; intros [H1 H2]; split.
  - intros Hin. specialize (H1 _ Hin). discriminate H1.
  - intros Hin. assert (existsb (str_eqb s) std_types = true) as E; [|congruence].
    apply existsb_exists. exists s. split; [exact Hin|apply str_eqb_refl].
  - intros c Hc. unfold is_dot. destruct (N.eqb_spec c 46) as [->|]; [contradiction|reflexivity].
  - destruct (existsb (str_eqb s) std_types) eqn:E; [|reflexivity].
    apply existsb_exists in E as (x & Hx & E). apply str_eqb_eq in E. subst x. contradiction.
Qed.

Lemma split_on_len p s : length (split_on p s) = S (length (filter p s)).
Proof.
  induction s as [|c s IH]; [reflexivity|]. cbn [split_on filter].
  destruct (p c); cbn [length]; [now rewrite IH|].
  pose proof (split_on_nonnil p s). destruct (split_on p s); [contradiction|]. exact IH.
Qed.

Lemma layer_text_stable' s l :
  (length (filter (N.eqb 46) s) <= 1)%nat -> layer_of_str s = Some l -> show_layer l = s.
Proof.
  intros Hl H. apply layer_text_stable; [exact H|]. rewrite split_on_len.
  rewrite (filter_ext is_dot (N.eqb 46)) by (intros; unfold is_dot; apply N.eqb_sym). lia.
Qed.

Lemma layer_text_witness : exists s l, layer_of_str s = Some l /\ show_layer l <> s.
Proof.
  exists (lit "Cu.a.b"). eexists. split; [vm_compute; reflexivity|]. vm_compute. discriminate.
Qed.
