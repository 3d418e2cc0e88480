(** * Completing a setup twice *)
From Verif Require Import Prelude PreludeFacts ByteOrder Convert Float HeaderIO VOC IRCAM NIST WAVE Extended Setup SetupFacts SetupSpec SetupProofs.
From Verif Require Arrange.

(** Completing a completed setup changes nothing. *)
Ltac again E :=
  branches E; injection E as <-; unfold refuseIf; proj;
  repeat (proj; rewrite ?setSF_ok by (cbn; lia); proj; match goal with |- context [if ?b then _ else _] => first [replace b with false by lia | replace b with true by lia] end);
  proj; rewrite ?setSF_ok by (cbn; lia); proj; try reflexivity.
Lemma again_wave host s f : sane host s -> tidy s -> su_file s = F_WAVE -> complete host s = (true, f) -> complete host (withFmt s f) = (true, f).
Proof.
  openSetup host s f. unfold waveComplete, waveSF, wrongOrder, refuseIf, forceOrder, setOrder, isComp, badWidth, inComp, inWidth, isSF, isIntF, rateBad, hasMarks, hasInst, hasMisc, miscOutside, withFmt. proj.
  casesOf Hw Hsf c sfs sf w os o; intros E; again E.
Qed.
Lemma again_aiff host s f : sane host s -> tidy s -> su_file s = F_AIFF -> complete host s = (true, f) -> complete host (withFmt s f) = (true, f).
Proof.
  openSetup host s f. unfold aiffComplete, wrongOrder, refuseIf, forceOrder, setOrder, isComp, badWidth, inComp, inWidth, isSF, isIntF, rateBad, hasMarks, hasInst, hasMisc, miscOutside, withFmt. proj.
  casesOf Hw Hsf c sfs sf w os o; intros E; again E.
Qed.
Lemma again_aifc host s f : sane host s -> tidy s -> su_file s = F_AIFFC -> complete host s = (true, f) -> complete host (withFmt s f) = (true, f).
Proof.
  openSetup host s f. unfold aiffComplete, wrongOrder, refuseIf, forceOrder, setOrder, isComp, badWidth, inComp, inWidth, isSF, isIntF, rateBad, hasMarks, hasInst, hasMisc, miscOutside, withFmt. proj.
  casesOf Hw Hsf c sfs sf w os o; intros E; again E.
Qed.
Lemma again_next host s f : sane host s -> tidy s -> su_file s = F_NEXT -> complete host s = (true, f) -> complete host (withFmt s f) = (true, f).
Proof.
  openSetup host s f. unfold nextComplete, wrongOrder, refuseIf, forceOrder, setOrder, isComp, badWidth, inComp, inWidth, isSF, isIntF, rateBad, hasMarks, hasInst, hasMisc, miscOutside, withFmt. proj.
  casesOf Hw Hsf c sfs sf w os o; intros E; again E.
Qed.
Lemma again_ircam host s f : sane host s -> tidy s -> su_file s = F_IRCAM -> complete host s = (true, f) -> complete host (withFmt s f) = (true, f).
Proof.
  openSetup host s f. unfold ircamComplete, wrongOrder, refuseIf, forceOrder, setOrder, isComp, badWidth, inComp, inWidth, isSF, isIntF, rateBad, hasMarks, hasInst, hasMisc, miscOutside, withFmt. proj.
  casesOf Hw Hsf c sfs sf w os o; destruct cos; try discriminate (Hco eq_refl); destruct cs; hyps; try subst n; intros E; again E.
Qed.
Lemma again_avr host s f : sane host s -> tidy s -> su_file s = F_AVR -> complete host s = (true, f) -> complete host (withFmt s f) = (true, f).
Proof.
  openSetup host s f. unfold avrComplete, wrongOrder, refuseIf, forceOrder, setOrder, isComp, badWidth, inComp, inWidth, isSF, isIntF, rateBad, hasMarks, hasInst, hasMisc, miscOutside, withFmt. proj.
  casesOf Hw Hsf c sfs sf w os o; intros E; again E.
Qed.
Lemma again_iff host s f : sane host s -> tidy s -> su_file s = F_IFF -> complete host s = (true, f) -> complete host (withFmt s f) = (true, f).
Proof.
  openSetup host s f. unfold iffComplete, wrongOrder, refuseIf, forceOrder, setOrder, isComp, badWidth, inComp, inWidth, isSF, isIntF, rateBad, hasMarks, hasInst, hasMisc, miscOutside, withFmt. proj.
  casesOf Hw Hsf c sfs sf w os o; destruct cos; try discriminate (Hco eq_refl); destruct cs; hyps; try subst n; intros E; again E.
Qed.
Lemma again_smp host s f : sane host s -> tidy s -> su_file s = F_SMP -> complete host s = (true, f) -> complete host (withFmt s f) = (true, f).
Proof.
  openSetup host s f. unfold smpComplete, wrongOrder, refuseIf, forceOrder, setOrder, isComp, badWidth, inComp, inWidth, isSF, isIntF, rateBad, hasMarks, hasInst, hasMisc, miscOutside, withFmt. proj.
  casesOf Hw Hsf c sfs sf w os o; destruct cos; try discriminate (Hco eq_refl); destruct cs; hyps; try subst n; intros E; again E.
Qed.
Lemma again_voc host s f : sane host s -> tidy s -> su_file s = F_VOC -> complete host s = (true, f) -> complete host (withFmt s f) = (true, f).
Proof.
  openSetup host s f. unfold vocComplete, wrongOrder, refuseIf, forceOrder, setOrder, isComp, badWidth, inComp, inWidth, isSF, isIntF, rateBad, hasMarks, hasInst, hasMisc, miscOutside, withFmt. proj.
  casesOf Hw Hsf c sfs sf w os o; intros E; again E.
Qed.
Lemma again_nist host s f : sane host s -> tidy s -> su_file s = F_NIST -> complete host s = (true, f) -> complete host (withFmt s f) = (true, f).
Proof.
  openSetup host s f. unfold nistComplete, wrongOrder, refuseIf, forceOrder, setOrder, isComp, badWidth, inComp, inWidth, isSF, isIntF, rateBad, hasMarks, hasInst, hasMisc, miscOutside, withFmt. proj.
  casesOf Hw Hsf c sfs sf w os o; destruct cos; try discriminate (Hco eq_refl); destruct cs; hyps; try subst n; intros E; again E.
Qed.
Lemma again_caf host s f : sane host s -> tidy s -> su_file s = F_CAF -> complete host s = (true, f) -> complete host (withFmt s f) = (true, f).
Proof.
  openSetup host s f. unfold cafComplete, wrongOrder, refuseIf, forceOrder, setOrder, isComp, badWidth, inComp, inWidth, isSF, isIntF, rateBad, hasMarks, hasInst, hasMisc, miscOutside, withFmt. proj.
  casesOf Hw Hsf c sfs sf w os o; intros E; again E.
Qed.
Lemma again_raw host s f : sane host s -> tidy s -> su_file s = F_RAW -> complete host s = (true, f) -> complete host (withFmt s f) = (true, f).
Proof.
  openSetup host s f. unfold rawComplete, wrongOrder, refuseIf, forceOrder, setOrder, isComp, badWidth, inComp, inWidth, isSF, isIntF, rateBad, hasMarks, hasInst, hasMisc, miscOutside, withFmt. proj.
  casesOf Hw Hsf c sfs sf w os o; intros E; again E.
Qed.

Lemma complete_again host s f : sane host s -> tidy s -> complete host s = (true, f) -> complete host (afterOpen host s) = (true, f).
Proof.
  intros Hs Ht E. unfold afterOpen. rewrite E. cbn [snd]. destruct (su_file s) eqn:Ef.
  - exact (again_raw host s f Hs Ht Ef E).
  - exact (again_aifc host s f Hs Ht Ef E).
  - exact (again_aiff host s f Hs Ht Ef E).
  - exact (again_next host s f Hs Ht Ef E).
  - exact (again_wave host s f Hs Ht Ef E).
  - exact (again_ircam host s f Hs Ht Ef E).
  - exact (again_avr host s f Hs Ht Ef E).
  - exact (again_iff host s f Hs Ht Ef E).
  - exact (again_smp host s f Hs Ht Ef E).
  - exact (again_voc host s f Hs Ht Ef E).
  - exact (again_nist host s f Hs Ht Ef E).
  - exact (again_caf host s f Hs Ht Ef E).
Qed.
