(** * Facts about setups: the default mappings, what the afInit... functions keep true, and writeInit *)
From Verif Require Import Prelude PreludeFacts ByteOrder Convert Float HeaderIO VOC IRCAM NIST WAVE Extended PropertiesExtended Setup.
From Verif Require Arrange.

(** The PCM mapping that belongs to a sample format: full scale for the bytes the sample takes. *)
Definition mappingOf (sf : sampfmt) (w : Z) : Arrange.pcmInfo :=
  let c := if w <=? 8 then kInt8 else if w <=? 16 then kInt16 else if w <=? 24 then kInt24 else kInt32 in
  match sf with TwosComp => Arrange.signedMapping c | Unsigned => Arrange.unsignedMapping c | _ => Arrange.floatMapping end.
(** The pairs of sample format and sample width the library knows. *)
Definition widthOk (sf : sampfmt) (w : Z) : Prop := match sf with Float => w = 32 | Double => w = 64 | _ => 1 <= w <= 32 end.

Lemma widthAndPCM_ok sf w : widthOk sf w -> widthAndPCM sf w = Some (w, mappingOf sf w).
Proof.
  unfold widthAndPCM, mappingOf. destruct sf; cbn [toA]; intros H; cbn in H; [| |subst; reflexivity|subst; reflexivity];
    unfold Arrange.setSampleFormat; rewrite (proj2 (Z.ltb_ge w 1)), (proj2 (Z.ltb_ge 32 w)) by lia; cbn [orb];
    rewrite Z.quot_div_nonneg by lia;
    (destruct (Z.leb_spec w 8); [replace ((w + 7) / 8) with 1 by lia; reflexivity|]);
    (destruct (Z.leb_spec w 16); [replace ((w + 7) / 8) with 2 by lia; reflexivity|]);
    (destruct (Z.leb_spec w 24); [replace ((w + 7) / 8) with 3 by lia; reflexivity|]);
    replace ((w + 7) / 8) with 4 by lia; reflexivity.
Qed.
Lemma setSF_ok f sf w : widthOk sf w -> setSF f sf w = AFmt (a_rate f) sf w (a_order f) (mappingOf sf w) (a_chan f) (a_comp f).
Proof. intros H. unfold setSF. rewrite (widthAndPCM_ok sf w H). reflexivity. Qed.
Lemma widthAndPCM_inv sf w w' m : widthAndPCM sf w = Some (w', m) -> widthOk sf w' /\ m = mappingOf sf w'.
Proof.
  destruct sf.
  - destruct (Z.leb_spec 1 w). 2: { unfold widthAndPCM, Arrange.setSampleFormat; cbn [toA]. rewrite (proj2 (Z.ltb_lt w 1)) by lia. discriminate. }
    destruct (Z.leb_spec w 32). 2: { unfold widthAndPCM, Arrange.setSampleFormat; cbn [toA]. rewrite (proj2 (Z.ltb_lt 32 w)), orb_true_r by lia. discriminate. }
    rewrite widthAndPCM_ok by (cbn; lia). intros H1. injection H1 as <- <-. cbn; split; [lia|reflexivity].
  - destruct (Z.leb_spec 1 w). 2: { unfold widthAndPCM, Arrange.setSampleFormat; cbn [toA]. rewrite (proj2 (Z.ltb_lt w 1)) by lia. discriminate. }
    destruct (Z.leb_spec w 32). 2: { unfold widthAndPCM, Arrange.setSampleFormat; cbn [toA]. rewrite (proj2 (Z.ltb_lt 32 w)), orb_true_r by lia. discriminate. }
    rewrite widthAndPCM_ok by (cbn; lia). intros H1. injection H1 as <- <-. cbn; split; [lia|reflexivity].
  - intros H. injection H as <- <-. split; reflexivity.
  - intros H. injection H as <- <-. split; reflexivity.
Qed.

(** ** What every sequence of calls keeps true *)
Record sane (host : order) (s : setup) : Prop := Sane {
  sn_width : widthOk (a_sf (su_fmt s)) (a_width (su_fmt s));
  sn_chan : 1 <= a_chan (su_fmt s);
  sn_rate : SFleb (a_rate (su_fmt s)) (dOfZ 0) = false;
  sn_sf : su_sfSet s = false -> a_sf (su_fmt s) = TwosComp /\ a_width (su_fmt s) = 16;
  sn_order : su_orderSet s = false -> a_order (su_fmt s) = host;
  sn_chan0 : su_chanSet s = false -> a_chan (su_fmt s) = 2;
  sn_comp0 : su_compSet s = false -> a_comp (su_fmt s) = CNone }.
Lemma sane_new host : sane host (newSetup host).
Proof. constructor; cbn; try lia; auto. Qed.
Lemma sane_step host s c : sane host s -> sane host (scallStep s c).
Proof.
  intros H. destruct H as [Hw Hc Hr Hsf Ho Hch Hco].
  destruct c; cbn [scallStep]; try (constructor; cbn; assumption).
  - destruct (Z.ltb_spec n 1); constructor; cbn; auto. discriminate.
  - constructor; cbn.
    + unfold setSF. destruct (widthAndPCM sf w) as [[w' m]|] eqn:E; [|exact Hw]. cbn. apply (widthAndPCM_inv _ _ _ _ E).
    + unfold setSF. destruct (widthAndPCM sf w) as [[w' m]|]; exact Hc.
    + unfold setSF. destruct (widthAndPCM sf w) as [[w' m]|]; exact Hr.
    + discriminate.
    + unfold setSF. destruct (widthAndPCM sf w) as [[w' m]|]; exact Ho.
    + unfold setSF. destruct (widthAndPCM sf w) as [[w' m]|]; exact Hch.
    + unfold setSF. destruct (widthAndPCM sf w) as [[w' m]|]; exact Hco.
  - constructor; cbn; auto. discriminate.
  - constructor; cbn; auto. discriminate.
  - destruct (SFleb r (dOfZ 0)) eqn:Er; constructor; cbn; auto.
  - constructor; cbn; auto. discriminate.
  - destruct (n <? 0); constructor; cbn; auto.
  - destruct (negb (distinct ids)); constructor; cbn; auto.
  - destruct (negb (distinct ids)); constructor; cbn; auto.
Qed.
Lemma sane_run host calls : forall s, sane host s -> sane host (fold_left scallStep calls s).
Proof. induction calls as [|c calls IH]; intros s H; cbn; auto. apply IH, sane_step, H. Qed.

(** ** The header writers *)
Lemma toExtended_defined r : validD r = true -> exists b, toExtended r = Ok b.
Proof.
  destruct r as [s|s| |s m e]; intros H.
  - destruct s; eexists; vm_compute; reflexivity.
  - destruct s; eexists; vm_compute; reflexivity.
  - eexists; vm_compute; reflexivity.
  - destruct (C41_extended_roundtrip s m e H) as (b & E & _). eauto.
Qed.
