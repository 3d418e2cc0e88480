(** * Proofs about completeSetup and writeInit *)
From Verif Require Import Prelude PreludeFacts ByteOrder Convert Float HeaderIO VOC IRCAM NIST WAVE Extended Setup SetupFacts SetupSpec.
From Verif Require Arrange.

(** ** Proofs *)
Definition numOK (m : Arrange.pcmInfo) : Prop :=
  isNaN (Arrange.slope m) = false /\ isNaN (Arrange.intercept m) = false /\ isNaN (Arrange.minClip m) = false /\ isNaN (Arrange.maxClip m) = false.
Lemma mappingOf_num sf w : numOK (mappingOf sf w).
Proof.
  unfold mappingOf. destruct (w <=? 8); [|destruct (w <=? 16); [|destruct (w <=? 24)]]; destruct sf; repeat split; reflexivity.
Qed.
Record tidy (s : setup) : Prop := Tidy {
  td_chan : a_chan (su_fmt s) < 2147483648; td_rate : validD (a_rate (su_fmt s)) = true; td_comp : a_comp (su_fmt s) <> CFLAC; td_pcm : numOK (a_pcm (su_fmt s)) }.
Lemma tidy_step s c : ordinary c -> tidy s -> tidy (scallStep s c).
Proof.
  intros Ho [Hc Hr Hk Hp]. destruct c; cbn [scallStep]; try (constructor; cbn; assumption).
  - destruct (n <? 1); constructor; cbn; auto.
  - unfold setSF. destruct (widthAndPCM sf w) as [[w' m]|] eqn:E; [|constructor; cbn; auto]. destruct (widthAndPCM_inv _ _ _ _ E) as [_ ->].
    constructor; cbn; auto. apply mappingOf_num.
  - destruct (SFleb r (dOfZ 0)); constructor; cbn; auto.
  - destruct (n <? 0); constructor; cbn; auto.
  - destruct (negb (distinct ids)); constructor; cbn; auto.
  - destruct (negb (distinct ids)); constructor; cbn; auto.
Qed.
Lemma tidy_run calls : forall s, (forall c, In c calls -> ordinary c) -> tidy s -> tidy (fold_left scallStep calls s).
Proof. induction calls as [|c calls IH]; intros s Ho H; cbn; auto. apply IH; [intros; apply Ho; cbn; auto|]. apply tidy_step; auto. apply Ho. cbn. auto. Qed.
Lemma made_sane host calls s : made host calls s -> sane host s /\ tidy s.
Proof.
  intros [Ho <-]. split; [apply sane_run, sane_new|]. apply tidy_run; auto. constructor; cbn; try lia; try discriminate; try reflexivity. repeat split; reflexivity.
Qed.

(** What a successful completeSetup says about the completed format. *)
Definition goodLinear (ff : ffmt) (f : aformat) : Prop := a_comp f = CNone -> linearHolds ff (a_sf f) (a_width f) (a_order f).
Definition goodComp (ff : ffmt) (f : aformat) : Prop :=
  match a_comp f with
  | CNone => True
  | CUlaw | CAlaw => In ff [F_RAW; F_AIFFC; F_NEXT; F_WAVE; F_IRCAM; F_VOC; F_NIST; F_CAF]
  | CIMA => In ff [F_RAW; F_AIFFC; F_WAVE; F_CAF]
  | CMSADPCM => In ff [F_RAW; F_WAVE]
  | CALAC => In ff [F_RAW; F_CAF]
  | CFLAC => False
  end.
Record completed (host : order) (s : setup) (f : aformat) : Prop := Completed {
  cp_linear : goodLinear (su_file s) f; cp_comp : goodComp (su_file s) f; cp_keep : a_comp f = a_comp (su_fmt s) /\ a_rate f = a_rate (su_fmt s);
  cp_chan : a_chan f = a_chan (su_fmt s) \/ su_file s = F_IFF /\ su_chanSet s = false; cp_one : su_file s = F_IFF -> a_chan f = 1;
  cp_ircam : su_file s = F_IRCAM -> channelsFit F_IRCAM (a_chan f);
  cp_width : widthOk (a_sf f) (a_width f); cp_pcm : numOK (a_pcm f);
  cp_set : su_sfSet s = true -> a_width f = a_width (su_fmt s);
  cp_unset : su_sfSet s = false -> a_width f = 16 \/ su_file s = F_IFF;
  cp_sf : a_sf f = a_sf (su_fmt s) \/
          su_file s = F_WAVE /\ isComp f = false /\ (a_sf (su_fmt s) = Unsigned /\ a_sf f = TwosComp \/ a_sf (su_fmt s) = TwosComp /\ a_sf f = Unsigned) \/
          su_file s = F_NEXT /\ a_sf (su_fmt s) = Unsigned /\ a_sf f = TwosComp;
  cp_map : a_pcm (su_fmt s) = mappingOf (a_sf (su_fmt s)) (a_width (su_fmt s)) -> a_pcm f = mappingOf (a_sf f) (a_width f);
  cp_voc : su_file s = F_VOC -> a_sf f = TwosComp /\ a_width f = 16 \/ a_sf f = Unsigned /\ a_width f = 8;
  cp_nist : su_file s = F_NIST -> a_sf f = TwosComp /\ 1 <= a_width f <= 16;
  cp_pack : su_file s = F_IRCAM -> a_sf f <> Unsigned;
  cp_order : isComp f = false -> su_orderSet s = true -> 8 < a_width f -> a_order f = a_order (su_fmt s) \/ su_file s = F_SMP }.

Ltac hyps := repeat match goal with H : ?x = ?x -> _ |- _ => specialize (H eq_refl) | H : false = true -> _ |- _ => clear H | H : true = false -> _ |- _ => clear H end.
Ltac dbool := repeat match goal with
  | H : context [(?a =? ?b)%Z] |- _ => destruct (Z.eqb_spec a b)
  | H : context [(?a <? ?b)%Z] |- _ => destruct (Z.ltb_spec a b)
  | H : context [(?a <=? ?b)%Z] |- _ => destruct (Z.leb_spec a b)
  | |- context [(?a =? ?b)%Z] => destruct (Z.eqb_spec a b)
  | |- context [(?a <? ?b)%Z] => destruct (Z.ltb_spec a b)
  | |- context [(?a <=? ?b)%Z] => destruct (Z.leb_spec a b)
  end.
Ltac proj := cbn [su_file su_fmt su_rateSet su_sfSet su_orderSet su_chanSet su_compSet su_aes su_markSet su_marks su_instSet su_inst su_miscSet su_misc
  a_rate a_sf a_width a_order a_pcm a_chan a_comp existsb forallb compression_eqb sampfmt_eqb order_eqb orb andb negb fst snd].
Ltac projin E := cbn [su_file su_fmt su_rateSet su_sfSet su_orderSet su_chanSet su_compSet su_aes su_markSet su_marks su_instSet su_inst su_miscSet su_misc
  a_rate a_sf a_width a_order a_pcm a_chan a_comp existsb forallb compression_eqb sampfmt_eqb order_eqb orb andb negb fst snd] in E.
Ltac finish :=
  first [ solve [auto using mappingOf_num] | exact (mappingOf_num TwosComp _) | exact (mappingOf_num Unsigned _) | lia | discriminate | congruence | tauto | (left; finish) | (right; finish) | (split; finish) ].
Ltac branches E :=
  repeat (projin E; rewrite ?setSF_ok in E by (cbn; lia); projin E;
          match type of E with context [if ?b then _ else _] => match b with context [if _ then _ else _] => fail 1 | _ => let K := fresh "K" in destruct b eqn:K; try discriminate E; try discriminate K; projin K end end); projin E; rewrite ?setSF_ok in E by (cbn; lia); projin E; try discriminate E; try lia.
Ltac openSetup host s f :=
  intros Hs Ht Hf; unfold complete; rewrite Hf; destruct s as [ff [r sf w o m n c] rs sfs os cs cos aes ms nm is il mis mil];
  destruct Hs as [Hw Hc Hr Hsf Ho Hch Hco]; destruct Ht as [Tc Tr Tk Tp];
  cbn [su_file su_fmt su_rateSet su_sfSet su_orderSet su_chanSet su_compSet a_rate a_sf a_width a_order a_pcm a_chan a_comp] in *; subst ff.
Ltac casesOf Hw Hsf c sfs sf w os o :=
  destruct c; try congruence; (destruct sfs; [destruct sf; cbn [widthOk] in Hw; try subst w|destruct (Hsf eq_refl) as [-> ->]]); destruct os, o.
Ltac closeSetup E :=
  injection E as <-; constructor; unfold goodLinear, goodComp, linearHolds, isComp, channelsFit; proj; intros; cbn [In widthOk]; hyps; finish.

Lemma complete_wave host s f : sane host s -> tidy s -> su_file s = F_WAVE -> complete host s = (true, f) -> completed host s f.
Proof.
  openSetup host s f. unfold waveComplete, waveSF, wrongOrder, refuseIf, forceOrder, setOrder, isComp, badWidth, inComp, inWidth, isSF, isIntF, rateBad. proj.
  generalize (miscOutside (Su F_WAVE (AFmt r sf w o m n c) rs sfs os cs cos aes ms nm is il mis mil) [201; 202; 203; 210; 211; 212]). intros b0.
  generalize (is && (1 <? zlen il)). intros b1.
  casesOf Hw Hsf c sfs sf w os o; intros E; branches E; closeSetup E.
Qed.
Lemma complete_aiff host s f : sane host s -> tidy s -> su_file s = F_AIFF -> complete host s = (true, f) -> completed host s f.
Proof.
  openSetup host s f. unfold aiffComplete, wrongOrder, refuseIf, forceOrder, setOrder, isComp, badWidth, inComp, inWidth, isSF, isIntF, rateBad. proj.
  generalize (miscOutside (Su F_AIFF (AFmt r sf w o m n c) rs sfs os cs cos aes ms nm is il mis mil) [201; 202; 203; 204; 205; 206]). intros b0.
  generalize (is && (1 <? zlen il)). intros b1.
  generalize (is && match il with (_, loops) :: _ => negb (loops =? 2) | [] => false end). intros b2.
  casesOf Hw Hsf c sfs sf w os o; intros E; branches E; closeSetup E.
Qed.
Lemma complete_aifc host s f : sane host s -> tidy s -> su_file s = F_AIFFC -> complete host s = (true, f) -> completed host s f.
Proof.
  openSetup host s f. unfold aiffComplete, wrongOrder, refuseIf, forceOrder, setOrder, isComp, badWidth, inComp, inWidth, isSF, isIntF, rateBad. proj.
  generalize (miscOutside (Su F_AIFFC (AFmt r sf w o m n c) rs sfs os cs cos aes ms nm is il mis mil) [201; 202; 203; 204; 205; 206]). intros b0.
  generalize (is && (1 <? zlen il)). intros b1.
  generalize (is && match il with (_, loops) :: _ => negb (loops =? 2) | [] => false end). intros b2.
  casesOf Hw Hsf c sfs sf w os o; intros E; branches E; closeSetup E.
Qed.
Lemma complete_next host s f : sane host s -> tidy s -> su_file s = F_NEXT -> complete host s = (true, f) -> completed host s f.
Proof.
  openSetup host s f. unfold nextComplete, wrongOrder, refuseIf, forceOrder, setOrder, isComp, badWidth, inComp, inWidth, isSF, isIntF, rateBad. proj.
  generalize (aes || hasMarks (Su F_NEXT (AFmt r sf w o m n c) rs sfs os cs cos aes ms nm is il mis mil) || hasInst (Su F_NEXT (AFmt r sf w o m n c) rs sfs os cs cos aes ms nm is il mis mil) || hasMisc (Su F_NEXT (AFmt r sf w o m n c) rs sfs os cs cos aes ms nm is il mis mil)). intros b0.
  casesOf Hw Hsf c sfs sf w os o; intros E; branches E; closeSetup E.
Qed.
Lemma complete_ircam host s f : sane host s -> tidy s -> su_file s = F_IRCAM -> complete host s = (true, f) -> completed host s f.
Proof.
  openSetup host s f. unfold ircamComplete, wrongOrder, refuseIf, forceOrder, setOrder, isComp, badWidth, inComp, inWidth, isSF, isIntF, rateBad. proj.
  generalize (aes || hasMarks (Su F_IRCAM (AFmt r sf w o m n c) rs sfs os cs cos aes ms nm is il mis mil) || hasInst (Su F_IRCAM (AFmt r sf w o m n c) rs sfs os cs cos aes ms nm is il mis mil) || hasMisc (Su F_IRCAM (AFmt r sf w o m n c) rs sfs os cs cos aes ms nm is il mis mil)). intros b0.
  casesOf Hw Hsf c sfs sf w os o; destruct cos; try discriminate (Hco eq_refl); destruct cs; hyps; try subst n; intros E; branches E; closeSetup E.
Qed.
Lemma complete_avr host s f : sane host s -> tidy s -> su_file s = F_AVR -> complete host s = (true, f) -> completed host s f.
Proof.
  openSetup host s f. unfold avrComplete, wrongOrder, refuseIf, forceOrder, setOrder, isComp, badWidth, inComp, inWidth, isSF, isIntF, rateBad. proj.
  generalize (aes || hasMarks (Su F_AVR (AFmt r sf w o m n c) rs sfs os cs cos aes ms nm is il mis mil) || hasInst (Su F_AVR (AFmt r sf w o m n c) rs sfs os cs cos aes ms nm is il mis mil) || hasMisc (Su F_AVR (AFmt r sf w o m n c) rs sfs os cs cos aes ms nm is il mis mil)). intros b0.
  casesOf Hw Hsf c sfs sf w os o; intros E; branches E; closeSetup E.
Qed.
Lemma complete_iff host s f : sane host s -> tidy s -> su_file s = F_IFF -> complete host s = (true, f) -> completed host s f.
Proof.
  openSetup host s f. unfold iffComplete, wrongOrder, refuseIf, forceOrder, setOrder, isComp, badWidth, inComp, inWidth, isSF, isIntF, rateBad. proj.
  generalize (hasMarks (Su F_IFF (AFmt r sf w o m n c) rs sfs os cs cos aes ms nm is il mis mil) || aes || hasInst (Su F_IFF (AFmt r sf w o m n c) rs sfs os cs cos aes ms nm is il mis mil)). intros b0.
  casesOf Hw Hsf c sfs sf w os o; destruct cos; try discriminate (Hco eq_refl); destruct cs; hyps; try subst n; intros E; branches E; closeSetup E.
Qed.
Lemma complete_smp host s f : sane host s -> tidy s -> su_file s = F_SMP -> complete host s = (true, f) -> completed host s f.
Proof.
  openSetup host s f. unfold smpComplete, wrongOrder, refuseIf, forceOrder, setOrder, isComp, badWidth, inComp, inWidth, isSF, isIntF, rateBad. proj.
  generalize (hasMarks (Su F_SMP (AFmt r sf w o m n c) rs sfs os cs cos aes ms nm is il mis mil) || aes || hasInst (Su F_SMP (AFmt r sf w o m n c) rs sfs os cs cos aes ms nm is il mis mil) || hasMisc (Su F_SMP (AFmt r sf w o m n c) rs sfs os cs cos aes ms nm is il mis mil)). intros b0.
  casesOf Hw Hsf c sfs sf w os o; destruct cos; try discriminate (Hco eq_refl); destruct cs; hyps; try subst n; intros E; branches E; closeSetup E.
Qed.
Lemma complete_voc host s f : sane host s -> tidy s -> su_file s = F_VOC -> complete host s = (true, f) -> completed host s f.
Proof.
  openSetup host s f. unfold vocComplete, wrongOrder, refuseIf, forceOrder, setOrder, isComp, badWidth, inComp, inWidth, isSF, isIntF, rateBad. proj.
  generalize (hasMarks (Su F_VOC (AFmt r sf w o m n c) rs sfs os cs cos aes ms nm is il mis mil) || aes || hasInst (Su F_VOC (AFmt r sf w o m n c) rs sfs os cs cos aes ms nm is il mis mil) || hasMisc (Su F_VOC (AFmt r sf w o m n c) rs sfs os cs cos aes ms nm is il mis mil)). intros b0.
  casesOf Hw Hsf c sfs sf w os o; intros E; branches E; closeSetup E.
Qed.
Lemma complete_nist host s f : sane host s -> tidy s -> su_file s = F_NIST -> complete host s = (true, f) -> completed host s f.
Proof.
  openSetup host s f. unfold nistComplete, wrongOrder, refuseIf, forceOrder, setOrder, isComp, badWidth, inComp, inWidth, isSF, isIntF, rateBad. proj.
  generalize (aes || hasMarks (Su F_NIST (AFmt r sf w o m n c) rs sfs os cs cos aes ms nm is il mis mil) || hasInst (Su F_NIST (AFmt r sf w o m n c) rs sfs os cs cos aes ms nm is il mis mil) || hasMisc (Su F_NIST (AFmt r sf w o m n c) rs sfs os cs cos aes ms nm is il mis mil)). intros b0.
  casesOf Hw Hsf c sfs sf w os o; destruct cos; try discriminate (Hco eq_refl); destruct cs; hyps; try subst n; intros E; branches E; closeSetup E.
Qed.
Lemma complete_caf host s f : sane host s -> tidy s -> su_file s = F_CAF -> complete host s = (true, f) -> completed host s f.
Proof.
  openSetup host s f. unfold cafComplete, wrongOrder, refuseIf, forceOrder, setOrder, isComp, badWidth, inComp, inWidth, isSF, isIntF, rateBad. proj.
  generalize (hasMarks (Su F_CAF (AFmt r sf w o m n c) rs sfs os cs cos aes ms nm is il mis mil) || aes || hasInst (Su F_CAF (AFmt r sf w o m n c) rs sfs os cs cos aes ms nm is il mis mil) || hasMisc (Su F_CAF (AFmt r sf w o m n c) rs sfs os cs cos aes ms nm is il mis mil)). intros b0.
  casesOf Hw Hsf c sfs sf w os o; intros E; branches E; closeSetup E.
Qed.
Lemma complete_raw host s f : sane host s -> tidy s -> su_file s = F_RAW -> complete host s = (true, f) -> completed host s f.
Proof.
  openSetup host s f. unfold rawComplete, wrongOrder, refuseIf, forceOrder, setOrder, isComp, badWidth, inComp, inWidth, isSF, isIntF, rateBad. proj.
  generalize (aes || hasMarks (Su F_RAW (AFmt r sf w o m n c) rs sfs os cs cos aes ms nm is il mis mil) || hasInst (Su F_RAW (AFmt r sf w o m n c) rs sfs os cs cos aes ms nm is il mis mil) || hasMisc (Su F_RAW (AFmt r sf w o m n c) rs sfs os cs cos aes ms nm is il mis mil)). intros b0.
  casesOf Hw Hsf c sfs sf w os o; intros E; branches E; closeSetup E.
Qed.
Lemma complete_completed host s f : sane host s -> tidy s -> complete host s = (true, f) -> completed host s f.
Proof.
  intros Hs Ht E. destruct (su_file s) eqn:Ef.
  - exact (complete_raw host s f Hs Ht Ef E).
  - exact (complete_aifc host s f Hs Ht Ef E).
  - exact (complete_aiff host s f Hs Ht Ef E).
  - exact (complete_next host s f Hs Ht Ef E).
  - exact (complete_wave host s f Hs Ht Ef E).
  - exact (complete_ircam host s f Hs Ht Ef E).
  - exact (complete_avr host s f Hs Ht Ef E).
  - exact (complete_iff host s f Hs Ht Ef E).
  - exact (complete_smp host s f Hs Ht Ef E).
  - exact (complete_voc host s f Hs Ht Ef E).
  - exact (complete_nist host s f Hs Ht Ef E).
  - exact (complete_caf host s f Hs Ht Ef E).
Qed.

Lemma rateTo_ok n r z : truncZ r = Some z -> 0 <= z < 2 ^ n -> rateTo n r = Ok z.
Proof. intros E H. unfold rateTo, toUnsigned. rewrite E. rewrite (proj2 (Z.leb_le 0 z)), (proj2 (Z.ltb_lt z (2 ^ n))) by lia. reflexivity. Qed.
Lemma toU n x : 0 <= x < 2 ^ n -> toUnsigned n x = Ok x.
Proof. intros H. unfold toUnsigned. rewrite (proj2 (Z.leb_le 0 x)), (proj2 (Z.ltb_lt x (2 ^ n))) by lia. reflexivity. Qed.
Lemma ck32_in x : 0 <= x < 2147483648 -> ck32 x = Ok x.
Proof. intros H. unfold ck32. rewrite (proj2 (inS_spec 32 _)) by (change (2 ^ (32 - 1)) with 2147483648; lia). reflexivity. Qed.

Lemma fmtBytes_ok f z : widthOk (a_sf f) (a_width f) -> In (a_comp f) [CNone; CUlaw; CAlaw; CIMA; CMSADPCM] -> 1 <= a_chan f ->
  0 <= z -> (a_width f + 7) / 8 * a_chan f < 2 ^ 16 -> z * ((a_width f + 7) / 8 * a_chan f) < 2 ^ 32 ->
  exists b, fmtBytes (aZ f z) = Ok b.
Proof.
  intros Hw Hc Hn Hz H1 H2. change (2 ^ 16) with 65536 in H1. change (2 ^ 32) with 4294967296 in H2.
  assert (S : forall c, sampleSize (aZ (AFmt (a_rate f) (a_sf f) (a_width f) (a_order f) (a_pcm f) (a_chan f) c) z) = (a_width f + 7) / 8).
  { intros c. unfold sampleSize, aZ. cbn [a_comp a_sf a_width]. destruct c; cbn [f_sf f_width]; destruct (a_sf f); cbn [widthOk] in Hw;
      try (rewrite Z.quot_div_nonneg by lia; reflexivity); rewrite Hw; reflexivity. }
  destruct f as [r sf w o m n c]. cbn [a_rate a_sf a_width a_order a_pcm a_chan a_comp] in *.
  assert (W : 1 <= (w + 7) / 8) by (destruct sf; cbn in Hw; lia). set (k := (w + 7) / 8) in *. specialize (S c). set (g := aZ _ z) in *.
  assert (Ch : f_chan g = n) by (subst g; unfold aZ; cbn; destruct c; reflexivity).
  assert (Ra : f_rate g = z) by (subst g; unfold aZ; cbn; destruct c; reflexivity).
  assert (Co : f_comp g = c) by (subst g; unfold aZ; cbn; destruct c; reflexivity).
  assert (Bp : c = CIMA -> f_bpp g = 256 * n /\ f_fpp g = 505) by (intros ->; subst g; unfold aZ; cbn; auto).
  assert (Bp' : c = CMSADPCM -> f_bpp g = 256 * n /\ f_fpp g = 500) by (intros ->; subst g; unfold aZ; cbn; auto).
  clearbody g k. assert (F0 : 0 <= k * n) by nia. assert (F1 : n <= k * n) by nia. assert (F2 : 0 <= z * (k * n)) by nia.
  assert (F3 : z <= z * (k * n)) by nia. assert (F4 : z * n <= z * (k * n)) by nia.
  unfold fmtBytes, fmtFields. rewrite S, Ch, Ra, Co. rewrite (ck32_in (k * n)) by lia.
  destruct Hc as [<-|[<-|[<-|[<-|[<-|[]]]]]]; cbn [rbind squish]; rewrite ?(toU 16 (k * n)) by (change (2 ^ 16) with 65536; lia);
    cbn [rbind]; rewrite (toU 32 z) by (change (2 ^ 32) with 4294967296; lia); cbn [rbind].
  - rewrite Z.quot_1_r. rewrite toU by (change (2 ^ 32) with 4294967296; lia). cbn [rbind]. eauto.
  - rewrite toU by (rewrite Z.quot_div_nonneg by lia; change (2 ^ 32) with 4294967296; lia). cbn [rbind]. eauto.
  - rewrite toU by (rewrite Z.quot_div_nonneg by lia; change (2 ^ 32) with 4294967296; lia). cbn [rbind]. eauto.
  - destruct (Bp eq_refl) as [-> ->]. rewrite toU by (rewrite Z.quot_div_nonneg by lia; change (2 ^ 32) with 4294967296; lia). cbn [rbind].
    rewrite toU by (rewrite Z.quot_div_nonneg by nia; change (2 ^ 32) with 4294967296; split; [apply Z.div_pos; nia|apply Z.div_lt_upper_bound; nia]).
    cbn [rbind]. eauto.
  - destruct (Bp' eq_refl) as [-> ->]. rewrite toU by (rewrite Z.quot_div_nonneg by lia; change (2 ^ 32) with 4294967296; lia). cbn [rbind].
    rewrite toU by (rewrite Z.quot_div_nonneg by nia; change (2 ^ 32) with 4294967296; split; [apply Z.div_pos; nia|apply Z.div_lt_upper_bound; nia]).
    cbn [rbind]. eauto.
Qed.

Lemma writeInit_ok (B : Build) host s f : sane host s -> tidy s -> completed host s f ->
  rateFits (su_file s) (a_rate (su_fmt s)) (a_width (su_fmt s)) (a_chan (su_fmt s)) ->
  (su_file s = F_NIST -> a_comp (su_fmt s) = CNone \/ 8 < a_width (su_fmt s)) ->
  writeInit (su_file s) f = Ok true.
Proof.
  intros Hs Ht Hc Hr Hn. pose proof (cp_keep _ _ _ Hc) as [Kc Kr]. unfold writeInit. rewrite Kr.
  destruct (su_file s) eqn:Ef; cbn [rateFits] in Hr; try reflexivity.
  - destruct (toExtended_defined _ (td_rate _ Ht)) as [b ->]. reflexivity.
  - destruct (toExtended_defined _ (td_rate _ Ht)) as [b ->]. reflexivity.
  - destruct Hr as (z & E & R). rewrite (rateTo_ok 32 _ z E R). reflexivity.
  - destruct Hr as (z & E & R0 & R1 & R2). rewrite E.
    assert (W : a_width f = a_width (su_fmt s)).
    { destruct (su_sfSet s) eqn:Es; [apply (cp_set _ _ _ Hc), Es|]. destruct (sn_sf _ _ Hs Es) as [_ ->]. destruct (cp_unset _ _ _ Hc Es) as [W|W]; [exact W|congruence]. }
    assert (N : a_chan f = a_chan (su_fmt s)) by (destruct (cp_chan _ _ _ Hc) as [N|[N _]]; congruence).
    pose proof (cp_comp _ _ _ Hc) as Hk. unfold goodComp in Hk. rewrite Ef in Hk. pose proof (sn_chan _ _ Hs).
    destruct (fmtBytes_ok f z (cp_width _ _ _ Hc)) as [b ->]; try (rewrite ?W, ?N; assumption); [|reflexivity].
    destruct (a_comp f); cbn in Hk |- *; intuition discriminate.
  - pose proof (cp_comp _ _ _ Hc) as Hk. unfold goodComp in Hk. rewrite Ef in Hk. pose proof (cp_linear _ _ _ Hc) as Hl. unfold goodLinear in Hl. rewrite Ef in Hl.
    pose proof (cp_pack _ _ _ Hc Ef) as Hu.
    unfold packMode, aF. cbn [f_comp f_sf f_width]. destruct (a_comp f); try reflexivity; try (cbn in Hk; intuition discriminate).
    specialize (Hl eq_refl). cbn in Hl.
    destruct (a_sf f); try congruence.
    + destruct Hl as [[[? _]|[? _]]|[_ Hl]]; try discriminate. destruct Hl as [->|[->|[->| ->]]]; reflexivity.
    + destruct Hl as [[[_ ->]|[? _]]|[? _]]; try discriminate. reflexivity.
    + destruct Hl as [[[? _]|[_ ->]]|[? _]]; try discriminate. reflexivity.
  - destruct Hr as (z & E & R). rewrite (rateTo_ok 32 _ z E R). reflexivity.
  - destruct Hr as (z & E & R). rewrite (rateTo_ok 16 _ z E R). reflexivity.
  - destruct Hr as (z & E & R). rewrite (rateTo_ok 32 _ z E R).
    assert (V : vocWritable (aZ f 0) = true).
    { unfold vocWritable, aZ. destruct (cp_voc _ _ _ Hc Ef) as [[A1 A2]|[A1 A2]]; rewrite A1, A2; destruct (a_comp f); reflexivity. }
    rewrite V. unfold rassert. destruct asserting; reflexivity.
  - destruct Hr as (z & E & R). unfold toInt. rewrite E. rewrite (proj2 (inS_spec 32 _)) by (change (2 ^ (32 - 1)) with 2147483648; change (2 ^ 31) with 2147483648 in R; lia). cbn [rbind].
    assert (V : nistWritable (aZ f z) = true).
    { destruct (cp_nist _ _ _ Hc Ef) as [_ A2]. specialize (Hn eq_refl).
      assert (W : a_comp f = CNone \/ 8 < a_width f).
      { rewrite Kc. destruct Hn as [Hn|Hn]; [auto|right]. destruct (su_sfSet s) eqn:Es; [rewrite (cp_set _ _ _ Hc Es); exact Hn|].
        destruct (cp_unset _ _ _ Hc Es) as [->|?]; [lia|congruence]. }
      unfold nistWritable, nistBytes, aZ. pose proof (cp_comp _ _ _ Hc) as Hk. unfold goodComp in Hk. rewrite Ef in Hk.
      destruct (a_comp f); cbn [f_comp f_width]; try (cbn in Hk; intuition discriminate);
        rewrite (Z.quot_div_nonneg (a_width f + 7) 8) by lia; rewrite ?Z.quot_div_nonneg by (try apply Z.div_pos; lia); destruct W as [W|W]; try discriminate; lia. }
    rewrite V. unfold rassert. destruct asserting; reflexivity.
Qed.

Lemma formatOk_cases (B : Build) host f : a_comp f <> CFLAC -> numOK (a_pcm f) -> exists b, formatOk host f = Ok b /\
  (b = true -> match a_comp f with
    | CNone => True
    | CUlaw | CAlaw => a_sf f = TwosComp /\ a_width f = 16 /\ a_order f = host
    | CIMA | CMSADPCM => a_sf f = TwosComp /\ a_width f = 16 /\ a_order f = host /\ (a_chan f = 1 \/ a_chan f = 2)
    | _ => a_sf f = TwosComp /\ In (a_width f) [16; 20; 24; 32] /\ a_chan f <= 8
    end).
Proof.
  intros Hf (P1 & P2 & P3 & P4). unfold formatOk. destruct (a_comp f) eqn:Ec; try congruence.
  - rewrite P1, P2, P3, P4. unfold rassert. destruct asserting; eexists; split; try reflexivity; auto.
  - eexists; split; [reflexivity|]. unfold native16, isSF. destruct (a_sf f), (a_order f), host; cbn; rewrite ?andb_false_r; intros Hb; try discriminate; repeat split; lia.
  - eexists; split; [reflexivity|]. unfold native16, isSF. destruct (a_sf f), (a_order f), host; cbn; rewrite ?andb_false_r; intros Hb; try discriminate; repeat split; lia.
  - eexists; split; [reflexivity|]. unfold native16, isSF. destruct (a_sf f), (a_order f), host; cbn; rewrite ?andb_false_r; intros Hb; try discriminate; repeat split; lia.
  - eexists; split; [reflexivity|]. unfold native16, isSF. destruct (a_sf f), (a_order f), host; cbn; rewrite ?andb_false_r; intros Hb; try discriminate; repeat split; lia.
  - eexists; split; [reflexivity|]. unfold isSF, inWidth. destruct (a_sf f); cbn; rewrite ?andb_false_r; intros Hb; try discriminate; repeat split; lia.
Qed.
