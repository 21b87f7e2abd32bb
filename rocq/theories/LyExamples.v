(** Concrete layouts used as examples and witnesses. *)
From Coq Require Import String Lia.
From Flocq Require Import IEEE754.BinarySingleNaN.
From Verif Require Import Base Str Num F64 F64Text Sexp FpData FpLayer FpSer FpDe FpWf FpOps FpOpsSpec
  StrFacts F64Facts SexpFacts FpFacts FpExamples LyData LySer LyDe LyWf LyFacts LyReread LyOps LySpec LyNetFacts.
Open Scope string_scope. Open Scope list_scope.

Definition ex_gtext := mk_grtext (lit "hello board") (mkat "1" "2" "90") f_silk ex_effects (Some (lit "5A")).
Definition ex_pts1 : pts := [mkxy "0" "0" XXy; mkxy "10.5" "0" XXy; mkxy "10.5" "-3" XXy].
Definition ex_pts2 : pts := [mkxy "1" "1" XXy].
Definition ex_dim :=
  mk_dim (lit "10 mm") (fl "0.3") (mk_layer SDwgs LUser) (Some (lit "0")) ex_gtext
    ex_pts1 ex_pts2 ex_pts2 ex_pts1 [] ex_pts1 ex_pts2.
Definition ex_zone :=
  mk_zone 12 (lit "GND") f_cu (lit "58A1") (mk_hatch (lit "edge") (fl "0.508")) 3
    (mk_cp (Some (lit "yes")) (fl "0.2")) (fl "0.254") (Some (mk_ko true false true))
    (mk_fill true true 16 (fl "0.5") (fl "0.25") (Some (lit "fillet")) (fl "0.1"))
    [ex_pts1; ex_pts2] [ex_pts1] (Some ex_pts2) [node "unknown" [a_lit "x"]].
Definition ex_class :=
  mk_nc (lit "Default") (lit "the default class") (fl "0.2") (fl "0.25") (fl "0.6") (fl "0.4")
    (fl "0.3") (fl "0.1") (Some (fl "0.25")) None [lit "GND"; lit "Net-(R1-Pad1)"].
Definition ex_module2 : module :=
  mk_module (lit "QFN-32") [ELayer f_cu; EFpText ex_ref; EAt (mkat "-4" "0" "0")].
Definition ex_layout : layout :=
  mk_layout 4 (mk_host (lit "pcbnew") (lit "4.0.7")) general_default (lit "A4")
    (mk_setup [mk_se (lit "last_trace_width") (lit "0.25") None;
               mk_se (lit "pad_size") (lit "1.5") (Some (lit "1.5"))]
              [mk_se (lit "layerselection") (lit "0x00030_80000001") None])
    [mk_ly_layer 0 f_cu TSignal false; mk_ly_layer 44 (mk_layer SNone (LOther (lit "Rescue"))) TUser true]
    [YNet (mk_net 0 []); YNet (mk_net 12 (lit "GND")); YNet (mk_net 2 (lit "Net-(R1-Pad1)"));
     YNetClass ex_class; YModule ex_module; YModule ex_module2; YGrText ex_gtext;
     YGrLine (mk_grline (mkxy "5" "0" XStart) (mkxy "-1" "7" XEnd) (fl "90") f_silk (fl "0.15") None);
     YGrArc (mk_grarc (mkxy "1" "2" XStart) (mkxy "3" "4" XEnd) (fl "45") f_silk (fl "0.15") (Some (lit "1")));
     YGrCircle (mk_grcircle (mkxy "1" "2" XCenter) (mkxy "3" "4" XEnd) f_silk (fl "0.15") None);
     YDimension ex_dim;
     YSegment (mk_seg (mkxy "1" "2" XStart) (mkxy "3" "4" XEnd) (fl "0.25") f_cu 12 (Some (lit "9")) None);
     YVia (mk_via true false (mkat "1" "2" "0") (fl "0.6") (fl "0.3") [f_cu; mk_layer SBack LCu] 12);
     YZone ex_zone; YOther (node "target" [a_lit "plus"])].

Lemma ex_layout_ok : layout_ok ex_layout = true.
Proof. vm_compute. reflexivity. Qed.
Lemma ex_layout_reread : exists s l, de_layout s = Ok l /\ layout_clean l = true.
Proof.
  exists (ser_layout ex_layout), ex_layout.
  split; [apply rt_layout, ex_layout_ok|vm_compute; reflexivity].
Qed.
Lemma ex_layout_geo : forallb ly_geo_ok (ly_elements ex_layout) = true.
Proof. vm_compute. reflexivity. Qed.

Definition with_setup (l : layout) (u : setup) : layout :=
  mk_layout (ly_version l) (ly_host l) (ly_general l) (ly_page l) u (ly_layers l) (ly_elements l).
Definition w_setup := with_setup layout_default (mk_setup [mk_se (lit "pcbplotparams") (lit "1") None] []).
Definition w_zone : zone :=
  mk_zone 12 (lit "GND") f_cu (lit "58A1") (mk_hatch (lit "edge") (fl "0.508")) 9223372036854775808
    (mk_cp None (fl "0.2")) (fl "0.254") None
    (mk_fill true true 16 (fl "0.5") (fl "0.25") None (fl "0.1")) [] [] None [].
Definition w_prio := with_elements layout_default [YZone w_zone].
Definition w_key := with_elements layout_default [YOther (node "net" [a_lit "1"; a_lit "GND"])].

Lemma layout_witnesses :
  (exists l, is_ok (de_layout (ser_layout l)) = false /\ su_elements (ly_setup l) <> [])
  /\ (exists l z, ly_elements l = [YZone z] /\ (zo_priority z < 2 ^ 64)%Z
        /\ is_ok (de_layout (ser_layout l)) = false)
  /\ (exists l l' s n, ly_elements l = [YOther s] /\ de_layout (ser_layout l) = Ok l'
        /\ ly_elements l' = [YNet n]).
Proof.
  split; [|split].
  - exists w_setup. split; [vm_compute; reflexivity|discriminate].
  - exists w_prio, w_zone. split; [reflexivity|]. split; [reflexivity|vm_compute; reflexivity].
  - exists w_key, (with_elements layout_default [YNet (mk_net 1 (lit "GND"))]),
      (node "net" [a_lit "1"; a_lit "GND"]), (mk_net 1 (lit "GND")).
    split; [reflexivity|]. split; [|reflexivity].
    exact (rt_layout (with_elements layout_default [YNet (mk_net 1 (lit "GND"))]) eq_refl).
Qed.

(** A zone of a file with a negative priority is rewritten with another one. *)
Definition w_neg : sexp :=
  node "kicad_pcb" [node "zone" [kv "net" (a_i 1); kv "net_name" (a_lit "G"); kv "layer" (a_lit "F.Cu");
    kv "tstamp" (a_lit "0"); node "hatch" [a_lit "edge"; a_lit "0.5"]; kv "priority" (a_i (-1));
    node "connect_pads" [kv "clearance" (a_lit "0.2")]; kv "min_thickness" (a_lit "0.2");
    node "fill" [a_lit "yes"; kv "arc_segments" (a_i 16); kv "thermal_gap" (a_lit "0.5");
      kv "thermal_bridge_width" (a_lit "0.5")]]].
Lemma layout_neg_witness : exists s l z, de_layout s = Ok l /\ ly_elements l = [YZone z]
   /\ zo_priority z = 18446744073709551615%Z /\ is_ok (de_layout (ser_layout l)) = false.
Proof.
  exists w_neg.
  assert (H : match de_layout w_neg with
              | Ok l => match ly_elements l with
                        | [YZone z] => Z.eqb (zo_priority z) 18446744073709551615 && negb (is_ok (de_layout (ser_layout l)))
                        | _ => false end
              | _ => false end = true) by (vm_compute; reflexivity).
  destruct (de_layout w_neg) as [l| |]; try discriminate.
  destruct (ly_elements l) as [|[m|n|n|t|g|a|c|d|s|v|z|s] [|]] eqn:E; try discriminate.
  apply andb_prop in H as [H1 H2]. apply Z.eqb_eq in H1. apply negb_true_iff in H2.
  exists l, z. auto.
Qed.

(** A failing update in the middle leaves the earlier names changed. *)
Definition w_update : name_update := set_unnamed_net (lit "R7").
Definition w_nets := with_elements layout_default [YNet (mk_net 1 (lit "Net-(R1-Pad1)")); YNet (mk_net 2 (lit "GND"))].
Lemma update_witness : exists u l l' k, update_net_names u l = (l', Some k) /\ layout_names l' <> layout_names l.
Proof. exists w_update, w_nets. eexists _, _. split; [reflexivity|]. vm_compute. discriminate. Qed.

Lemma ex_names : layout_names ex_layout =
  [[]; lit "GND"; lit "Net-(R1-Pad1)"; lit "GND"; lit "Net-(R1-Pad1)"; lit "Net-(R1-Pad1)"; lit "GND"].
Proof. reflexivity. Qed.
Lemma ex_renamed : exists l', change_net_name (lit "GND") (lit "0V") ex_layout = Ok l'
  /\ layout_names l' = [[]; lit "0V"; lit "Net-(R1-Pad1)"; lit "0V"; lit "Net-(R1-Pad1)"; lit "Net-(R1-Pad1)"; lit "0V"].
Proof.
  destruct (change_net_name_spec (lit "GND") (lit "0V") ex_layout) as (l' & E & N & _).
  exists l'. split; [exact E|]. rewrite N, ex_names. reflexivity.
Qed.

Lemma unnamed_witnesses :
  (exists n a b, is_unnamed_net n = Some (a, b) /\ n <> lit "Net-(" ++ a ++ lit "-" ++ b ++ lit ")")
  /\ (exists new n n' a b, is_unnamed_net n = Some (a, b) /\ set_unnamed_net new n = (n', None)
        /\ is_unnamed_net n' = None).
Proof.
  split.
  - exists (lit "Net-(a)b(c"), (lit "a"), (lit "b"). split; [reflexivity|discriminate].
  - exists (lit "IC-1"), (lit "Net-(R1-Pad1)"). eexists _, _, _. split; [reflexivity|]. split; reflexivity.
Qed.

Lemma ex_carries : carries (lit "U1") ex_module /\ carries (lit "U1") ex_module2.
Proof.
  split; apply carries_iff; reflexivity.
Qed.
