(** Examples for C67 and C68. *)
From Coq Require Import String Reals Lia.
From Verif Require Import Base Str StrFacts Num NumFacts F64 F64Text Sexp DecSpec DecFacts FpData FpLayer FpSer FpDe LyData LySer LyDe FpLibTable FpExamples LyExamples GramSpec GramFacts GramRead.
Open Scope string_scope. Open Scope list_scope.

Definition odd_tree : sexp := node "module" [a_lit "a"; node "fp_poly" [node "pts" [node "start" [a_lit "1"; a_lit "2"]]; node "layer" [a_lit "F.Cu"]; node "width" [a_lit "1"]]].
Lemma odd_element p l : po_pts p = [l] -> xy_t l = XStart -> ~ exists g, In g (g_elements (saved false)) /\ follows g (ser_poly p).
Proof.
  intros E T (g & I & F). unfold ser_poly, node in F. rewrite E in F. unfold ser_pts, node in F. cbn [map] in F. unfold ser_xy in F. rewrite T in F.
  unfold g_elements in I. cbn [In] in I. repeat destruct I as [<-|I]; try contradiction; try (inversion F; fail).
  all: try (assert (K := named_inv _ _ _ F); destruct K as [l' K]; discriminate K).
  inversion F as [|? ? ? ? K R| |]; subst. inversion R as [|? ? ? ? P Q| | | |]; subst. inversion P as [|? ? ? ? K2 R2| |]; subst.
  inversion R2 as [| | | |? ? ? N|? ? ? ? ? G X N]; subst; [inversion N|]. destruct G as [<-|[]]. inversion X as [|? ? ? ? K3| |]; subst. discriminate K3.
Qed.
Lemma odd_point : exists t m, de_module t = Ok m /\ ~ follows (g_module (saved false)) (ser_module m).
Proof.
  exists odd_tree.
  assert (K : match de_module odd_tree with Ok (mk_module _ [EFpPoly (mk_poly [mk_xy _ _ XStart] _ _)]) => true | _ => false end = true) by (vm_compute; reflexivity).
  destruct (de_module odd_tree) as [m| |]; [|discriminate K|discriminate K]. exists m. split; [reflexivity|].
  destruct m as [n [|e r]]; [discriminate K|]. destruct e as [| | | | | | |p| | | | | | | | | |]; try discriminate K.
  destruct p as [ps w la]. destruct ps as [|q ps]; [discriminate K|]. destruct q as [x y t]. destruct t; try discriminate K. destruct ps; [|discriminate K]. destruct r; [|discriminate K].
  intros F. inversion F as [|? ? ? ? K2 R| |]; subst. inversion R as [|? ? ? ? P Q| | | |]; subst.
  inversion Q as [| | | |? ? ? N|? g ? ? ? I X N]; subst; [inversion N|].
  apply (odd_element (mk_poly [mk_xy x y XStart] w la) (mk_xy x y XStart)); [reflexivity|reflexivity|]. now exists g.
Qed.

Definition slanted : module :=
  mk_module (lit "a") [EPad (mk_pad (lit "1") Smd Trapezoid (mkxy "1" "2" XSize) (Some (mkxy "0" "0.5" XRectDelta)) (mkat "0" "0" "0") [] None None None None None None None)].
Lemma slant : exists m, module_roles m = true /\ follows (g_module (saved false)) (ser_module m) /\ exists e, de_module (ser_module m) = Err e.
Proof.
  exists slanted. assert (R : module_roles slanted = true) by (vm_compute; reflexivity). split; [exact R|]. split; [now apply f_module|].
  assert (K : match de_module (ser_module slanted) with Err _ => true | _ => false end = true) by (vm_compute; reflexivity).
  destruct (de_module (ser_module slanted)) as [|e|]; try discriminate K. now exists e.
Qed.

Ltac digs := repeat (apply Forall_cons; [unfold is_digit; cbn; lia|]); apply Forall_nil.
Lemma num_is sg neg ip pt fp ex x s : s = sg ++ ip ++ pt ++ ex -> sign_text sg neg -> Forall is_digit ip -> point_text pt fp -> exp_text ex x -> ip ++ fp <> [] -> follows (num readable) (SStr s).
Proof. intros -> S I P E N. apply fo_word. eexists neg, _. eapply number_is; eassumption. Qed.
Lemma num_plain s : s <> [] -> Forall is_digit s -> follows (num readable) (SStr s).
Proof. intros N D. apply (num_is [] false s [] [] [] 0); [now rewrite !app_nil_r|constructor|exact D|constructor|constructor|now rewrite app_nil_r]. Qed.
Ltac nm := apply num_plain; [discriminate|cbv [lit list_ascii_of_string map]; digs].
Ltac fin := first [apply fa_nil | apply fa_end | apply fa_skip].
Definition read_ex : sexp :=
  node "module" [a_lit "R"; a_lit "locked"; node "tedit" [a_lit "5aF"]; node "at" [a_lit "+1.50"; a_lit "-.5e1"];
        node "pad" [a_lit "1"; a_lit "smd"; a_lit "rect"; node "at" [a_lit "0"; a_lit "0"; a_lit "90"]; node "size" [a_lit "1"; a_lit "2"];
          node "drill" [a_lit "oval"; a_lit "1"; node "offset" [a_lit "1"; a_lit "2"]]; node "layers" [a_lit "F.Cu"; a_lit "mine"]; node "clearance" [a_lit "1"]]].
Lemma rep gs g b s l : In g gs -> follows g s -> follow_all (Rep gs :: b) l -> follow_all (Rep gs :: b) (s :: l).
Proof. intros. now apply fa_rep with g. Qed.
Ltac pick n := match n with O => left; reflexivity | S ?k => right; pick k end.
Ltac el n := eapply rep; [unfold g_elements; pick n| |].
Ltac named := apply fo_named; [reflexivity|].
Ltac wd := apply fo_word; eexists; split; [|reflexivity]; cbn [In]; tauto.
Ltac tx := apply fo_word; exact I.
Lemma follows_ex : follows (g_module readable) read_ex.
Proof.
  named. apply fa_one; [tx|].
  el 0%nat; [wd|]. el 8%nat. { named. apply fa_one; [|apply fa_nil]. apply fo_word. exists 1455%Z. apply hex_iff. vm_compute. reflexivity. }
  el 10%nat.
  { named. apply fa_one. { apply (num_is [43%N] false (lit "1") (lit ".50") (lit "50") [] 0); [reflexivity|exact sign_plus|cbv [lit list_ascii_of_string map]; digs|apply point_some; cbv [lit list_ascii_of_string map]; digs|apply exp_none|discriminate]. }
    apply fa_one. { apply (num_is [45%N] true [] (lit ".5") (lit "5") (lit "e1") 1); [reflexivity|exact sign_minus|apply Forall_nil|apply point_some; cbv [lit list_ascii_of_string map]; digs| |discriminate].
      apply (exp_some 101%N [] false (lit "1")); [now left|apply sign_none|cbv [lit list_ascii_of_string map]; digs|discriminate]. }
    apply fa_skip, fa_nil. }
  el 12%nat; [|apply fa_end, fa_nil].
  named. cbn [delta may loose flat_map readable app]. apply fa_one; [tx|]. apply fa_one; [wd|]. apply fa_one; [wd|].
  apply fa_opt. { named. apply fa_one; [nm|]. apply fa_one; [nm|]. apply fa_opt; [nm|apply fa_nil]. }
  apply fa_opt. { named. apply fa_one; [nm|]. apply fa_one; [nm|]. apply fa_nil. }
  apply fa_opt. { named. apply fa_opt; [wd|]. apply fa_one; [nm|]. apply fa_skip. apply fa_opt; [|apply fa_nil]. named. apply fa_one; [nm|]. apply fa_one; [nm|]. apply fa_nil. }
  apply fa_opt.
  { named. eapply rep; [left; reflexivity| |].
    - apply fo_word. right. exists "F", (lit "Cu"). split; [reflexivity|]. split; [|now left]. unfold no_dots. cbn. lia.
    - eapply rep; [left; reflexivity| |apply fa_end, fa_nil]. apply fo_word. left. unfold no_dots. cbn. lia. }
  eapply rep; [pick 4%nat| |apply fa_end, fa_nil]. named. apply fa_one; [nm|apply fa_nil].
Qed.
Lemma readable_example : exists s, follows (g_module readable) s /\ s = read_ex.
Proof. exists read_ex. split; [exact follows_ex|reflexivity]. Qed.
