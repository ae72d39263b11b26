From Coq Require Import ZArith Ascii String List Bool Lia.
From Verif Require Import Poseidon Parse ParseSpec.
Import ListNotations.
Open Scope Z_scope.

(** *** facts about single characters, by going through the 256 of them *)
Lemma isSpace_blank c : isSpace c = true <-> blank c.
Proof.
  split.
  - destruct c as [[] [] [] [] [] [] [] []]; vm_compute; intros H; try discriminate H; tauto.
  - unfold blank. cbn [map]. intros H.
    repeat (destruct H as [H|H]; [subst c; reflexivity|]). destruct H.
Qed.

Lemma hexDigit_spec c d : hexDigit c = Some d <-> hex_digit c d.
Proof.
  split.
  - destruct c as [[] [] [] [] [] [] [] []]; cbv; intros H; try discriminate H;
      injection H as <-; (split; [split; [discriminate | reflexivity]|]); cbv; tauto.
  - intros [R H].
    assert (D : d = 0 \/ d = 1 \/ d = 2 \/ d = 3 \/ d = 4 \/ d = 5 \/ d = 6 \/ d = 7 \/ d = 8 \/
                d = 9 \/ d = 10 \/ d = 11 \/ d = 12 \/ d = 13 \/ d = 14 \/ d = 15) by lia.
    repeat (destruct D as [D|D]; [subst d; destruct H as [H|H]; cbv in H; injection H as <-; reflexivity|]).
    subst d; destruct H as [H|H]; cbv in H; injection H as <-; reflexivity.
Qed.

(** *** numbers *)
Lemma hexAcc_app s c d acc v :
  hexAcc acc s = Some v -> hexDigit c = Some d -> hexAcc acc (s ++ [c]) = Some (16 * v + d).
Proof.
  revert acc; induction s as [|x s IH]; intros acc E D; cbn [hexAcc app] in *.
  - injection E as ->. rewrite D. reflexivity.
  - destruct (hexDigit x) as [k|]; cbn [obind] in *; [|discriminate E]. now apply IH.
Qed.

Lemma hexAcc_snoc_inv s c acc v :
  hexAcc acc (s ++ [c]) = Some v ->
  exists w d, hexAcc acc s = Some w /\ hexDigit c = Some d /\ v = 16 * w + d.
Proof.
  revert acc; induction s as [|x s IH]; intros acc E; cbn [hexAcc app] in *.
  - destruct (hexDigit c) as [d|]; cbn [obind] in E; [|discriminate E].
    injection E as <-. now exists acc, d.
  - destruct (hexDigit x) as [k|]; cbn [obind] in *; [|discriminate E]. now apply IH.
Qed.

Lemma hexNat_spec s v : hexNat s = Some v <-> hex_of s v.
Proof.
  split.
  - revert v. induction s as [|c s IH] using rev_ind; intros v H; [discriminate H|].
    assert (H' : hexAcc 0 (s ++ [c]) = Some v).
    { unfold hexNat in H. destruct (s ++ [c]) eqn:E; [destruct s; discriminate E|exact H]. }
    apply hexAcc_snoc_inv in H'. destruct H' as (w & d & Hs & Hd & ->).
    apply hexDigit_spec in Hd. destruct s as [|x s].
    + cbn in Hs. injection Hs as <-. change (16 * 0 + d) with d. now constructor.
    + apply (hex_snoc (x :: s) w c d); [|exact Hd]. apply IH. exact Hs.
  - induction 1 as [c d H | s v c d H IH Hd].
    + apply hexDigit_spec in H. cbn [hexNat hexAcc]. rewrite H. reflexivity.
    + apply hexDigit_spec in Hd. destruct s as [|x s]; [discriminate IH|].
      cbn [hexNat app]. change (x :: s ++ [c]) with ((x :: s) ++ [c]).
      apply hexAcc_app; [exact IH|exact Hd].
Qed.

Lemma hex_first s v : hex_of s v -> exists c r, s = c :: r /\ exists d, hexDigit c = Some d.
Proof.
  induction 1 as [c d H | s v c d H IH Hd].
  - exists c, []. split; [reflexivity|]. exists d. now apply hexDigit_spec.
  - destruct IH as (x & r & -> & D). exists x, (r ++ [c]). split; [reflexivity|exact D].
Qed.
Lemma hex_last s v : hex_of s v -> exists r c, s = r ++ [c] /\ exists d, hexDigit c = Some d.
Proof.
  destruct 1 as [c d H | s v c d H Hd].
  - exists [], c. split; [reflexivity|]. exists d. now apply hexDigit_spec.
  - exists s, c. split; [reflexivity|]. exists d. now apply hexDigit_spec.
Qed.
Lemma hex_all s v : hex_of s v -> Forall (fun c => exists d, hexDigit c = Some d) s.
Proof.
  induction 1 as [c d H | s v c d H IH Hd].
  - constructor; [|constructor]. exists d. now apply hexDigit_spec.
  - apply Forall_app. split; [exact IH|]. constructor; [|constructor]. exists d. now apply hexDigit_spec.
Qed.

(** every number can be written *)
Lemma hex_write v : 0 <= v -> exists s, hex_of s v.
Proof.
  intros H. revert H. apply (Zlt_0_ind (fun v => exists s, hex_of s v)).
  intros x IH Hx.
  assert (Dg : forall d, 0 <= d < 16 -> exists c, hex_digit c d).
  { intros d Hd. destruct (nth_error (str "0123456789abcdef") (Z.to_nat d)) as [c|] eqn:E.
    - exists c. split; [exact Hd|]. now left.
    - apply nth_error_None in E. cbn in E. lia. }
  destruct (Z_lt_ge_dec x 16) as [L|G].
  - destruct (Dg x ltac:(lia)) as [c Hc]. exists [c]. now constructor.
  - assert (M := Z.div_mod x 16 ltac:(lia)). assert (B := Z.mod_pos_bound x 16 ltac:(lia)).
    assert (Q : 0 <= x / 16 < x) by (split; [apply Z.div_pos; lia | apply Z.div_lt; lia]).
    destruct (IH (x / 16) Q) as [s Hs]. destruct (Dg (x mod 16) B) as [c Hc].
    exists (s ++ [c]). rewrite M. now constructor.
Qed.

(** *** blanks at both ends *)
Lemma trimSpace_eq s : trimSpace s = rev (trimLeft (rev (trimLeft s))).
Proof. unfold trimSpace, rev'. now rewrite <- !rev_alt. Qed.
Lemma trimLeft_blanks b m : Forall blank b -> trimLeft (b ++ m) = trimLeft m.
Proof.
  induction 1 as [|c b H _ IH]; [reflexivity|].
  cbn [app trimLeft]. rewrite (proj2 (isSpace_blank c) H). exact IH.
Qed.
Lemma trimLeft_stop c m : isSpace c = false -> trimLeft (c :: m) = c :: m.
Proof. intros H. cbn [trimLeft]. now rewrite H. Qed.
Lemma trimLeft_split s : exists b, s = b ++ trimLeft s /\ Forall blank b.
Proof.
  induction s as [|c s (b & E & F)]; [now exists []|].
  cbn [trimLeft]. destruct (isSpace c) eqn:H.
  - exists (c :: b). split; [cbn [app]; now f_equal|]. constructor; [now apply isSpace_blank|exact F].
  - now exists [].
Qed.
Lemma trimSpace_split s : exists b1 b2, s = b1 ++ trimSpace s ++ b2 /\ Forall blank b1 /\ Forall blank b2.
Proof.
  destruct (trimLeft_split s) as (b & E & F).
  destruct (trimLeft_split (rev (trimLeft s))) as (b' & E' & F').
  exists b, (rev b'). repeat split; [|exact F|now apply Forall_rev].
  rewrite ?trimSpace_eq. rewrite <- rev_app_distr, <- E', rev_involutive. exact E.
Qed.
(** the middle starts and ends with something that is not blank *)
Lemma trimSpace_mid b1 b2 m x r y r' :
  Forall blank b1 -> Forall blank b2 ->
  m = x :: r -> m = r' ++ [y] -> isSpace x = false -> isSpace y = false ->
  trimSpace (b1 ++ m ++ b2) = m.
Proof.
  intros F1 F2 E1 E2 X Y. rewrite ?trimSpace_eq. rewrite trimLeft_blanks by exact F1.
  rewrite E1 at 1. cbn [app]. rewrite trimLeft_stop by exact X.
  change (x :: r ++ b2) with ((x :: r) ++ b2). rewrite <- E1, rev_app_distr.
  rewrite trimLeft_blanks by now apply Forall_rev.
  rewrite E2 at 1. rewrite rev_app_distr. cbn [rev app]. rewrite trimLeft_stop by exact Y.
  change (y :: rev r') with (rev [y] ++ rev r'). rewrite <- rev_app_distr, rev_involutive.
  now symmetry.
Qed.

Lemma digit_char c d : hexDigit c = Some d ->
  isSpace c = false /\ Ascii.eqb c "-" = false /\ Ascii.eqb c "+" = false /\
  Ascii.eqb c "," = false /\ Ascii.eqb c "[" = false /\ Ascii.eqb c "]" = false /\
  Ascii.eqb c LF = false /\ Ascii.eqb c " " = false /\ Ascii.eqb "x" c = false.
Proof. destruct c as [[] [] [] [] [] [] [] []]; cbv; intros H; try discriminate H; repeat split. Qed.

(** *** one entry *)
Lemma setString16_spec t v :
  setString16 t = Some v <->
  exists g s w, hex_of s w /\ t = g ++ s /\
    ((g = str "-" /\ v = - w) \/ ((g = str "+" \/ g = []) /\ v = w)).
Proof.
  split.
  - destruct t as [|c r]; [discriminate|]. cbn [setString16].
    destruct (Ascii.eqb_spec c "-") as [->|N1].
    { destruct (hexNat r) as [w|] eqn:E; [|discriminate]. cbn [obind]. injection 1 as <-.
      exists (str "-"), r, w. repeat split; [now apply hexNat_spec|left; split; reflexivity]. }
    destruct (Ascii.eqb_spec c "+") as [->|N2]; intros H.
    { exists (str "+"), r, v. repeat split; [now apply hexNat_spec|right; split; [now left|reflexivity]]. }
    exists [], (c :: r), v. repeat split; [now apply hexNat_spec|right; split; [now right|reflexivity]].
  - intros (g & s & w & Hs & -> & [[-> ->]|[[->| ->] ->]]); apply hexNat_spec in Hs as Hn.
    + change (setString16 (str "-" ++ s)) with (obind (hexNat s) (fun v => Some (- v))). now rewrite Hn.
    + exact Hn.
    + destruct (hex_first s w Hs) as (c & r & -> & d & D). cbn [app setString16].
      destruct (digit_char c d D) as (_ & -> & -> & _). exact Hn.
Qed.

Lemma parseEntry_spec e v : parseEntry e = Some v <-> loose_entry e v.
Proof.
  split.
  - unfold parseEntry, trimPrefix. intros H.
    destruct (trimSpace_split e) as (b1 & b2 & E & F1 & F2).
    destruct (cutPrefix (lit "0x") (trimSpace e)) as [t|] eqn:C.
    + assert (T : trimSpace e = str "0x" ++ t).
      { destruct (trimSpace e) as [|a [|b u]]; cbn [cutPrefix lit list_ascii_of_string] in C; try discriminate C.
        - destruct (Ascii.eqb "0" a); discriminate C.
        - destruct (Ascii.eqb_spec "0" a) as [<-|]; [|discriminate C].
          destruct (Ascii.eqb_spec "x" b) as [<-|]; [|discriminate C]. injection C as ->. reflexivity. }
      apply setString16_spec in H. destruct H as (g & s & w & Hs & -> & G).
      exists b1, (str "0x"), g, s, b2, w. repeat split; auto. rewrite E, T, <- !app_assoc. reflexivity.
    + apply setString16_spec in H. destruct H as (g & s & w & Hs & T & G).
      exists b1, [], g, s, b2, w. repeat split; auto. rewrite E, T, <- !app_assoc. reflexivity.
  - intros (b1 & p & g & s & b2 & w & F1 & F2 & Hs & -> & P & G).
    destruct (hex_last s w Hs) as (s' & y & Es & dy & Dy).
    destruct (hex_first s w Hs) as (x & s2 & Es2 & dx & Dx).
    assert (T : trimSpace (b1 ++ p ++ g ++ s ++ b2) = p ++ g ++ s).
    { replace (p ++ g ++ s ++ b2) with ((p ++ g ++ s) ++ b2) by now rewrite <- !app_assoc.
      assert (First : exists c r, p ++ g ++ s = c :: r /\ isSpace c = false).
      { destruct P as [-> | ->]; [eexists _, _; split; reflexivity|].
        destruct G as [[-> _]|[[-> | ->] _]]; try (eexists _, _; split; reflexivity).
        rewrite Es2. eexists _, _. split; [reflexivity|]. now apply (digit_char x dx). }
      destruct First as (c & r & Ec & Sc).
      apply (trimSpace_mid b1 b2 (p ++ g ++ s) c r y (p ++ g ++ s')); auto.
      - rewrite Es, <- !app_assoc. reflexivity.
      - now apply (digit_char y dy). }
    unfold parseEntry. rewrite T.
    assert (TP : trimPrefix (lit "0x") (p ++ g ++ s) = g ++ s).
    { destruct P as [-> | ->]; [reflexivity|]. cbn [app]. unfold trimPrefix.
      enough (C : cutPrefix (lit "0x") (g ++ s) = None) by now rewrite C.
      destruct G as [[-> _]|[[-> | ->] _]]; try reflexivity.
      assert (A := hex_all s w Hs). cbn [app].
      destruct s as [|a [|b u]]; [reflexivity| |].
      - cbn [cutPrefix lit list_ascii_of_string]. destruct (Ascii.eqb "0" a); reflexivity.
      - inversion A as [|? ? _ A']; inversion A' as [|? ? [d D] _]; subst.
        cbn [cutPrefix lit list_ascii_of_string].
        destruct (digit_char b d D) as (_ & _ & _ & _ & _ & _ & _ & _ & ->).
        destruct (Ascii.eqb "0" a); reflexivity. }
    rewrite TP. apply setString16_spec. exists g, s, w. auto.
Qed.

(** *** splitting at commas *)
Lemma split1_cons c s :
  split (lit ",") (c :: s) =
  if Ascii.eqb "," c then [] :: split (lit ",") s
  else match split (lit ",") s with [] => [[c]] | w :: ws => (c :: w) :: ws end.
Proof.
  unfold split. cbn [splitGo lit list_ascii_of_string cutPrefix].
  destruct (Ascii.eqb "," c); reflexivity.
Qed.
Lemma split1_nonempty s : split (lit ",") s <> [].
Proof.
  destruct s as [|c s]; [discriminate|]. rewrite split1_cons.
  destruct (Ascii.eqb "," c); [discriminate|]. destruct (split (lit ",") s); discriminate.
Qed.
Definition no (x : ascii) (s : bytes) : Prop := Forall (fun c => Ascii.eqb x c = false) s.
Lemma split1_plain e : no "," e -> split (lit ",") e = [e].
Proof.
  induction 1 as [|c e H _ IH]; [reflexivity|]. rewrite split1_cons, H, IH. reflexivity.
Qed.
Lemma split1_app e r : no "," e -> split (lit ",") (e ++ str "," ++ r) = e :: split (lit ",") r.
Proof.
  induction 1 as [|c e H _ IH].
  - cbn [app str list_ascii_of_string]. rewrite split1_cons. reflexivity.
  - cbn [app]. rewrite split1_cons, H. cbn [app] in IH. rewrite IH. reflexivity.
Qed.
(** every text is its pieces *)
Lemma split1_inv s : exists e, no "," e /\
  ((s = e /\ split (lit ",") s = [e]) \/
   exists r, s = e ++ str "," ++ r /\ split (lit ",") s = e :: split (lit ",") r /\
             (List.length r < List.length s)%nat).
Proof.
  induction s as [|c s (e & N & I)].
  - exists []. split; [constructor|]. left. split; reflexivity.
  - rewrite split1_cons. destruct (Ascii.eqb_spec "," c) as [<-|Hc].
    + exists []. split; [constructor|]. right. exists s. repeat split. cbn. lia.
    + exists (c :: e). split.
      { constructor; [|exact N]. now apply Ascii.eqb_neq. }
      destruct I as [[-> E]|(r & Es & E & L)].
      * left. rewrite E. split; reflexivity.
      * right. exists r. rewrite E. repeat split; [rewrite Es; reflexivity|cbn; lia].
Qed.

Lemma loose_no_comma e v : loose_entry e v -> no "," e.
Proof.
  intros (b1 & p & g & s & b2 & w & F1 & F2 & Hs & -> & P & G).
  assert (Bl : forall b, Forall blank b -> no "," b).
  { intros b. apply Forall_impl. intros c Hc. apply Ascii.eqb_neq. intros <-.
    apply isSpace_blank in Hc. discriminate Hc. }
  assert (Hx : no "," s).
  { eapply Forall_impl; [|exact (hex_all s w Hs)]. intros c [d D].
    rewrite Ascii.eqb_sym. now apply (digit_char c d). }
  unfold no in *. repeat (apply Forall_app; split); auto.
  - destruct P as [-> | ->]; repeat constructor.
  - destruct G as [[-> _]|[[-> | ->] _]]; repeat constructor.
Qed.

Lemma omap_split_spec s vs :
  omap parseEntry (split (lit ",") s) = Some vs <-> separated loose_entry s vs.
Proof.
  split.
  - remember (List.length s) as n eqn:Hn. revert s vs Hn.
    induction n as [n IH] using lt_wf_ind. intros s vs -> H.
    destruct (split1_inv s) as (e & N & [[Es E]|(r & Es & E & L)]); rewrite E in H; cbn [omap] in H;
      destruct (parseEntry e) as [v|] eqn:Ev; cbn [obind] in H; try discriminate H.
    + injection H as <-. rewrite Es. constructor. now apply parseEntry_spec.
    + destruct (omap parseEntry (split (lit ",") r)) as [ws|] eqn:Er; cbn [obind] in H; [|discriminate H].
      injection H as <-. rewrite Es. constructor; [now apply parseEntry_spec|].
      now apply (IH (List.length r) L r ws).
  - induction 1 as [e v H | e v r vs H _ IH].
    + rewrite split1_plain by now apply (loose_no_comma e v). cbn [omap].
      rewrite (proj2 (parseEntry_spec e v) H). reflexivity.
    + rewrite split1_app by now apply (loose_no_comma e v). cbn [omap].
      rewrite (proj2 (parseEntry_spec e v) H), IH. reflexivity.
Qed.

(** *** brackets *)
Definition strip (s : text) : text := removeAll "]" (removeAll "[" s).
Lemma strip_cons c s :
  strip (c :: s) = if Ascii.eqb c "[" then strip s else if Ascii.eqb c "]" then strip s else c :: strip s.
Proof.
  unfold strip, removeAll. cbn [filter]. destruct (Ascii.eqb c "["); cbn [negb filter]; [reflexivity|].
  destruct (Ascii.eqb c "]"); reflexivity.
Qed.
Lemma strip_app s t : strip (s ++ t) = strip s ++ strip t.
Proof. unfold strip, removeAll. now rewrite !filter_app. Qed.
Lemma strip_erased s t : strip s = t <-> erased s t.
Proof.
  split.
  - revert t. induction s as [|c s IH]; intros t; [intros <-; constructor|].
    rewrite strip_cons. destruct (Ascii.eqb_spec c "[") as [->|N1].
    { intros H. apply er_drop; [now left|auto]. }
    destruct (Ascii.eqb_spec c "]") as [->|N2]; intros H.
    { apply er_drop; [right; now left|auto]. }
    subst t. apply er_keep; [|auto]. intros [I|[I|[]]]; congruence.
  - induction 1 as [|c s t I _ IH|c s t I _ IH]; [reflexivity| |]; rewrite strip_cons.
    + destruct I as [<-|[<-|[]]]; exact IH.
    + destruct (Ascii.eqb_spec c "[") as [->|N1]; [destruct I; now left|].
      destruct (Ascii.eqb_spec c "]") as [->|N2]; [destruct I; right; now left|]. now rewrite IH.
Qed.

(** trimming a comma list changes nothing *)
Lemma trimSpace_left c s : blank c -> trimSpace (c :: s) = trimSpace s.
Proof. intros H. rewrite ?trimSpace_eq. cbn [trimLeft]. now rewrite (proj2 (isSpace_blank c) H). Qed.
Lemma trimSpace_right c s : blank c -> trimSpace (s ++ [c]) = trimSpace s.
Proof.
  intros H. induction s as [|x s IH].
  - cbn [app]. now apply trimSpace_left.
  - cbn [app]. destruct (isSpace x) eqn:X.
    + apply isSpace_blank in X. rewrite !trimSpace_left by exact X. exact IH.
    + rewrite ?trimSpace_eq. rewrite !trimLeft_stop by exact X.
      change (x :: s ++ [c]) with ((x :: s) ++ [c]). rewrite rev_app_distr. cbn [rev app].
      cbn [trimLeft]. now rewrite (proj2 (isSpace_blank c) H).
Qed.
Lemma blank_not_comma c : blank c -> Ascii.eqb "," c = false.
Proof. intros H. apply Ascii.eqb_neq. intros <-. apply isSpace_blank in H. discriminate H. Qed.

Lemma omap_left c s : blank c ->
  omap parseEntry (split (lit ",") (c :: s)) = omap parseEntry (split (lit ",") s).
Proof.
  intros H. rewrite split1_cons, (blank_not_comma c H).
  destruct (split (lit ",") s) as [|w ws] eqn:E; [now apply split1_nonempty in E|].
  cbn [omap]. unfold parseEntry at 1. rewrite trimSpace_left by exact H. reflexivity.
Qed.
Lemma omap_right c s : blank c ->
  omap parseEntry (split (lit ",") (s ++ [c])) = omap parseEntry (split (lit ",") s).
Proof.
  intros H. remember (List.length s) as n eqn:Hn. revert s Hn.
  induction n as [n IH] using lt_wf_ind. intros s ->.
  destruct (split1_inv s) as (e & N & [[Es E]|(r & Es & E & L)]); rewrite E.
  - rewrite Es. rewrite split1_plain.
    + cbn [omap]. unfold parseEntry at 1. rewrite trimSpace_right by exact H. reflexivity.
    + apply Forall_app. split; [exact N|]. constructor; [now apply blank_not_comma|constructor].
  - rewrite Es. rewrite <- !app_assoc. rewrite split1_app by exact N. cbn [omap].
    rewrite (IH (List.length r) L r eq_refl). reflexivity.
Qed.
Lemma omap_trim s :
  omap parseEntry (split (lit ",") (trimSpace s)) = omap parseEntry (split (lit ",") s).
Proof.
  destruct (trimSpace_split s) as (b1 & b2 & E & F1 & F2). rewrite E at 2. clear E.
  generalize (trimSpace s) as m. intros m. symmetry.
  transitivity (omap parseEntry (split (lit ",") (m ++ b2))).
  - induction F1 as [|c b H _ IH]; [reflexivity|]. cbn [app]. now rewrite omap_left.
  - clear F1. revert m. induction F2 as [|c b H _ IH]; intros m; [now rewrite app_nil_r|].
    change (c :: b) with ([c] ++ b). rewrite app_assoc, IH. now apply omap_right.
Qed.

(** *** the one-dimensional parser accepts exactly this *)
Lemma parseOne_iff s vs :
  parseOneDimensionArray s = Some vs <->
  exists t, erased s t /\ separated loose_entry t vs.
Proof.
  change (parseOneDimensionArray s) with (omap parseEntry (split (lit ",") (trimSpace (strip s)))).
  rewrite omap_trim, omap_split_spec. split.
  - intros H. exists (strip s). split; [now apply strip_erased|exact H].
  - intros (t & E & H). apply strip_erased in E. now rewrite E.
Qed.

Lemma blank_keep b : Forall blank b -> strip b = b.
Proof.
  induction 1 as [|c b H _ IH]; [reflexivity|]. rewrite strip_cons, IH. apply isSpace_blank in H.
  destruct (Ascii.eqb_spec c "[") as [->|]; [discriminate H|].
  destruct (Ascii.eqb_spec c "]") as [->|]; [discriminate H|]. reflexivity.
Qed.
Lemma hex_keep s v : hex_of s v -> strip s = s.
Proof.
  intros H. assert (A := hex_all s v H). clear H. induction A as [|c s [d D] _ IH]; [reflexivity|].
  rewrite strip_cons, IH. destruct (digit_char c d D) as (_ & _ & _ & _ & -> & -> & _). reflexivity.
Qed.
Lemma entry_loose (B : ascii -> Prop) e v : (forall c, B c -> blank c) -> entry B e v -> loose_entry e v /\ strip e = e.
Proof.
  intros HB (b1 & s & b2 & F1 & F2 & Hs & ->).
  assert (F1' : Forall blank b1) by (eapply Forall_impl; [exact HB|exact F1]).
  assert (F2' : Forall blank b2) by (eapply Forall_impl; [exact HB|exact F2]).
  split.
  - exists b1, (str "0x"), [], s, b2, v. repeat split; auto.
  - rewrite !strip_app, (blank_keep b1 F1'), (blank_keep b2 F2'), (hex_keep s v Hs). reflexivity.
Qed.
Lemma entries_loose (B : ascii -> Prop) s vs : (forall c, B c -> blank c) ->
  separated (entry B) s vs -> separated loose_entry s vs /\ strip s = s.
Proof.
  intros HB. induction 1 as [e v H | e v r vs H _ [IH1 IH2]]; destruct (entry_loose B e v HB H) as [L S].
  - split; [now constructor|exact S].
  - split; [now constructor|]. rewrite !strip_app, S, IH2. reflexivity.
Qed.
(** blanks around a comma list *)
Lemma separated_around b1 b2 s vs : Forall blank b1 -> Forall blank b2 ->
  separated loose_entry s vs -> separated loose_entry (b1 ++ s ++ b2) vs.
Proof.
  intros F1 F2 H. apply omap_split_spec in H. apply omap_split_spec. rewrite <- H. clear H.
  transitivity (omap parseEntry (split (lit ",") (s ++ b2))).
  - induction F1 as [|c b H _ IH]; [reflexivity|]. cbn [app]. now rewrite omap_left.
  - clear F1. revert s. induction F2 as [|c b H _ IH]; intros m; [now rewrite app_nil_r|].
    change (c :: b) with ([c] ++ b). rewrite app_assoc, IH. now apply omap_right.
Qed.

Lemma parseOne_text s vs : array_text blank s vs -> parseOneDimensionArray s = Some vs.
Proof.
  intros (b1 & r & b2 & F1 & F2 & R & ->). apply parseOne_iff.
  destruct (entries_loose blank r vs (fun c H => H) R) as [L S].
  exists (b1 ++ r ++ b2). split; [|now apply separated_around].
  apply strip_erased. rewrite !strip_app, S, (blank_keep b1 F1), (blank_keep b2 F2). reflexivity.
Qed.

(** the number of entries is fixed by the commas *)
Lemma split1_length s : List.length (split (lit ",") s) = S (commas s).
Proof.
  induction s as [|c s IH]; [reflexivity|]. rewrite split1_cons. unfold commas in *. cbn [count_occ].
  destruct (ascii_dec c ",") as [->|N]; [rewrite Ascii.eqb_refl; cbn [List.length]; now rewrite IH|].
  destruct (Ascii.eqb_spec "," c) as [E|_]; [now destruct N|].
  rewrite <- IH. destruct (split (lit ",") s) eqn:E; [now apply split1_nonempty in E|reflexivity].
Qed.
Lemma omap_length {A B} (f : A -> option B) l r : omap f l = Some r -> List.length r = List.length l.
Proof.
  revert r; induction l as [|a l IH]; intros r; cbn [omap]; [injection 1 as <-; reflexivity|].
  destruct (f a); cbn [obind]; [|discriminate]. destruct (omap f l) as [q|]; cbn [obind]; [|discriminate].
  injection 1 as <-. cbn. now rewrite (IH q eq_refl).
Qed.
Lemma commas_strip s : commas (strip s) = commas s.
Proof.
  induction s as [|c s IH]; [reflexivity|]. rewrite strip_cons. unfold commas in *.
  destruct (Ascii.eqb_spec c "[") as [->|]; [exact IH|].
  destruct (Ascii.eqb_spec c "]") as [->|]; [exact IH|]. cbn [count_occ]. destruct (ascii_dec c ","); now rewrite IH.
Qed.
Lemma parseOne_count s vs : parseOneDimensionArray s = Some vs -> List.length vs = S (commas s).
Proof.
  change (parseOneDimensionArray s) with (omap parseEntry (split (lit ",") (trimSpace (strip s)))).
  rewrite omap_trim. intros H. apply omap_length in H. now rewrite H, split1_length, commas_strip.
Qed.

(** *** two dimensions *)
Definition squeeze (s : text) : text := removeAll " " (removeAll LF s).
Lemma squeeze_app s t : squeeze (s ++ t) = squeeze s ++ squeeze t.
Proof. unfold squeeze, removeAll. now rewrite !filter_app. Qed.
Lemma squeeze_soft b : Forall soft b -> squeeze b = [].
Proof.
  induction 1 as [|c b H _ IH]; [reflexivity|].
  destruct H as [<-|[<-|[]]]; exact IH.
Qed.
Lemma squeeze_hex s v : hex_of s v -> squeeze s = s.
Proof.
  intros H. assert (A := hex_all s v H). clear H. induction A as [|c s [d D] _ IH]; [reflexivity|].
  destruct (digit_char c d D) as (_ & _ & _ & _ & _ & _ & E1 & E2 & _).
  unfold squeeze, removeAll in *. cbn [filter]. rewrite E1. cbn [negb filter]. rewrite E2. cbn [negb].
  now rewrite IH.
Qed.
(** no blanks at all *)
Definition none (c : ascii) : Prop := False.
Lemma squeeze_entry e v : entry soft e v -> entry none (squeeze e) v.
Proof.
  intros (b1 & s & b2 & F1 & F2 & Hs & ->). exists [], s, []. repeat split; try constructor; auto.
  rewrite !squeeze_app, (squeeze_soft b1 F1), (squeeze_soft b2 F2), (squeeze_hex s v Hs). reflexivity.
Qed.
Lemma squeeze_entries s vs : separated (entry soft) s vs -> separated (entry none) (squeeze s) vs.
Proof.
  induction 1 as [e v H | e v r vs H _ IH].
  - constructor. now apply squeeze_entry.
  - rewrite !squeeze_app. change (squeeze (str ",")) with (str ","). constructor; [now apply squeeze_entry|exact IH].
Qed.
Lemma squeeze_array s vs : array_text soft s vs -> array_text none (squeeze s) vs.
Proof.
  intros (b1 & r & b2 & F1 & F2 & R & ->). exists [], (squeeze r), []. repeat split; try constructor.
  - now apply squeeze_entries.
  - rewrite !squeeze_app, (squeeze_soft b1 F1), (squeeze_soft b2 F2). reflexivity.
Qed.
Lemma squeeze_rows s vss : separated (array_text soft) s vss -> separated (array_text none) (squeeze s) vss.
Proof.
  induction 1 as [e v H | e v r vs H _ IH].
  - constructor. now apply squeeze_array.
  - rewrite !squeeze_app. change (squeeze (str ",")) with (str ","). constructor; [now apply squeeze_array|exact IH].
Qed.

(** splitting at ],[ *)
Lemma split3_cons c s :
  Ascii.eqb "]" c = false ->
  split (lit "],[") (c :: s) =
  match split (lit "],[") s with [] => [[c]] | w :: ws => (c :: w) :: ws end.
Proof. intros H. unfold split. cbn [splitGo lit list_ascii_of_string cutPrefix]. now rewrite H. Qed.
Lemma split3_sep s : split (lit "],[") (str "],[" ++ s) = [] :: split (lit "],[") s.
Proof. reflexivity. Qed.
Lemma split3_app e s : no "]" e ->
  split (lit "],[") (e ++ str "],[" ++ s) = e :: split (lit "],[") s.
Proof.
  induction 1 as [|c e H _ IH]; [apply split3_sep|].
  cbn [app] in *. rewrite split3_cons, IH by exact H. reflexivity.
Qed.
Lemma split3_end e : no "]" e -> split (lit "],[") (e ++ str "]]") = [e ++ str "]]"].
Proof.
  induction 1 as [|c e H _ IH]; [reflexivity|].
  cbn [app] in *. rewrite split3_cons, IH by exact H. reflexivity.
Qed.

Lemma entries_no_close s vs : separated (entry none) s vs -> no "]" s.
Proof.
  assert (E : forall e v, entry none e v -> no "]" e).
  { intros e v (b1 & s0 & b2 & F1 & F2 & Hs & ->).
    destruct F1 as [|? ? []]. destruct F2 as [|? ? []].
    unfold no. repeat (apply Forall_app; split); try (repeat constructor).
    eapply Forall_impl; [|exact (hex_all s0 v Hs)]. intros c [d D].
    rewrite Ascii.eqb_sym. now apply (digit_char c d). }
  induction 1 as [e v H | e v r vs H _ IH]; [now apply (E e v)|].
  unfold no in *. repeat (apply Forall_app; split); [now apply (E e v)|repeat constructor|exact IH].
Qed.

Lemma parseOne_around l e r vs :
  separated (entry none) e vs -> strip l = [] -> strip r = [] ->
  parseOneDimensionArray (l ++ e ++ r) = Some vs.
Proof.
  intros H L R. apply parseOne_iff. destruct (entries_loose none e vs (fun c F => match F with end) H) as [S1 S2].
  exists e. split; [|exact S1]. apply strip_erased. now rewrite !strip_app, L, R, S2, app_nil_r.
Qed.

(** [l] is what stands before the first number of the row: [[ for the first
    row, nothing for the others *)
Lemma split3_rows s vss : separated (array_text none) s vss ->
  forall l, strip l = [] -> no "]" l ->
  exists s', s = str "[" ++ s' /\
  omap parseOneDimensionArray (split (lit "],[") (l ++ s' ++ str "]")) = Some vss.
Proof.
  induction 1 as [e v H | e v r vs H _ IH]; intros l L N;
    destruct H as (b1 & t & b2 & F1 & F2 & T & ->);
    destruct F1 as [|? ? []]; destruct F2 as [|? ? []];
    assert (Nt : no "]" (l ++ t)) by (apply Forall_app; split; [exact N|now apply entries_no_close in T]).
  - exists (t ++ str "]"). split; [reflexivity|].
    replace (l ++ (t ++ str "]") ++ str "]") with ((l ++ t) ++ str "]]") by (rewrite <- !app_assoc; reflexivity).
    rewrite split3_end by exact Nt. cbn [omap]. rewrite <- app_assoc.
    rewrite (parseOne_around l t (str "]]") v T L eq_refl). reflexivity.
  - destruct (IH [] eq_refl ltac:(constructor)) as (s' & -> & E).
    exists (t ++ str "]" ++ str "," ++ str "[" ++ s'). split; [cbn [app str list_ascii_of_string]; rewrite <- !app_assoc; reflexivity|].
    replace (l ++ (t ++ str "]" ++ str "," ++ str "[" ++ s') ++ str "]")
      with ((l ++ t) ++ str "],[" ++ ([] ++ s' ++ str "]")) by (rewrite <- !app_assoc; reflexivity).
    rewrite split3_app by exact Nt. cbn [omap].
    replace (l ++ t) with (l ++ t ++ []) by now rewrite app_nil_r.
    rewrite (parseOne_around l t [] v T L eq_refl). cbn [obind]. rewrite E. reflexivity.
Qed.

Lemma parseTwo_text s vss : table_text soft s vss -> parseTwoDimensionArray s = Some vss.
Proof.
  intros (b1 & r & b2 & F1 & F2 & R & ->).
  change (omap parseOneDimensionArray
    (split (lit "],[") (squeeze (trimSpace (b1 ++ str "[" ++ r ++ str "]" ++ b2)))) = Some vss).
  replace (b1 ++ str "[" ++ r ++ str "]" ++ b2) with (b1 ++ (str "[" ++ r ++ str "]") ++ b2)
    by (rewrite <- !app_assoc; reflexivity).
  rewrite (trimSpace_mid b1 b2 (str "[" ++ r ++ str "]") "[" (r ++ str "]") "]" (str "[" ++ r)); auto.
  rewrite !squeeze_app. change (squeeze (str "[")) with (str "["). change (squeeze (str "]")) with (str "]").
  apply squeeze_rows in R.
  destruct (split3_rows (squeeze r) vss R (str "[[") eq_refl ltac:(repeat constructor)) as (s' & -> & E).
  exact E.
Qed.

(** *** a width without a branch *)
Lemma parse_empty : parseOneDimensionArray [] = None /\ parseTwoDimensionArray [] = None.
Proof. split; reflexivity. Qed.


(** an entry without digits: a comma followed by blanks only *)
Lemma parseEntry_blank b : Forall blank b -> parseEntry b = None.
Proof.
  intros F. unfold parseEntry. replace (trimSpace b) with (@nil ascii); [reflexivity|]. symmetry.
  induction F as [|c b H _ IH]; [reflexivity|]. now rewrite trimSpace_left.
Qed.
Lemma omap_trailing s b : Forall blank b -> omap parseEntry (split (lit ",") (s ++ str "," ++ b)) = None.
Proof.
  intros F. remember (List.length s) as n eqn:Hn. revert s Hn.
  induction n as [n IH] using lt_wf_ind. intros s ->.
  destruct (split1_inv s) as (e & N & [[-> _]|(r & -> & _ & L)]).
  - rewrite split1_app by exact N. cbn [omap]. rewrite split1_plain.
    + cbn [omap]. rewrite (parseEntry_blank b F). destruct (parseEntry e); reflexivity.
    + eapply Forall_impl; [|exact F]. apply blank_not_comma.
  - rewrite <- !app_assoc, split1_app by exact N. cbn [omap].
    rewrite (IH (List.length r) L r eq_refl). destruct (parseEntry e); reflexivity.
Qed.
Lemma parseOne_trailing s t b :
  erased s (t ++ str "," ++ b) -> Forall blank b -> parseOneDimensionArray s = None.
Proof.
  intros E F. apply strip_erased in E.
  change (parseOneDimensionArray s) with (omap parseEntry (split (lit ",") (trimSpace (strip s)))).
  rewrite omap_trim, E. now apply omap_trailing.
Qed.

(** every list of non-negative numbers has a text, and so has every list of
    non-empty rows *)
Lemma array_write vs : vs <> [] -> Forall (fun v => 0 <= v) vs -> forall B : ascii -> Prop, exists s, array_text B s vs.
Proof.
  intros N F B. enough (exists r, separated (entry B) r vs) as [r R].
  { exists (str "[" ++ r ++ str "]"). exists [], r, []. repeat split; auto. }
  induction F as [|v vs H F IH]; [now destruct N|].
  destruct (hex_write v H) as [s Hs].
  assert (E : entry B (str "0x" ++ s) v).
  { exists [], s, []. repeat split; auto. now rewrite app_nil_r. }
  destruct vs as [|w vs].
  - exists (str "0x" ++ s). apply sep_one. exact E.
  - destruct IH as [r R]; [discriminate|]. eexists. apply sep_cons; [exact E|exact R].
Qed.
Lemma table_write vss : vss <> [] -> Forall (fun vs => vs <> [] /\ Forall (fun v => 0 <= v) vs) vss ->
  exists s, table_text soft s vss.
Proof.
  intros N F. enough (exists r, separated (array_text soft) r vss) as [r R].
  { exists (str "[" ++ r ++ str "]"). exists [], r, []. repeat split; auto. }
  induction F as [|v vs [H1 H2] F IH]; [now destruct N|].
  destruct (array_write v H1 H2 soft) as [s Hs].
  destruct vs as [|w vs].
  - exists s. apply sep_one. exact Hs.
  - destruct IH as [r R]; [discriminate|]. eexists. apply sep_cons; [exact Hs|exact R].
Qed.
