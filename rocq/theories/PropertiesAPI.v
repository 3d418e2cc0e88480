(** * C78: refused calls have no effect, and the settings reported are those that were made *)
From Verif Require Import Prelude PreludeFacts FileIO Rebuffer Reader ReaderSpec Writer ByteOrder Convert Float Arrange Rates Memory Virtual VirtualWrite API.
From Verif Require PropertiesVirtual.

(** ** Specification *)
(** The calls a file accepts: through its own handle, for its only track (1001), of the kind it was opened for, with a byte order that
    is one (501, 502), a sample format that is one (401 to 404) with 1 to 32 bits for integers, and a rate that is not negative. *)
Definition acceptable (toRead : bool) (x : bool * Z * call) : bool :=
  let '(valid, track, c) := x in
  valid &&
  match c with
  | ASync => true
  | ARead _ | ASeek _ | ATell => toRead && (track =? 1001)
  | AWrite _ => negb toRead && (track =? 1001)
  | ASetByteOrder o => (track =? 1001) && ((o =? 501) || (o =? 502))
  | ASetSampleFormat sf w => (track =? 1001) && ((sf =? 403) || (sf =? 404) || ((sf =? 401) || (sf =? 402)) && (1 <=? w) && (w <=? 32))
  | ASetRate r => (track =? 1001) && negb (SFltb r (dOfZ 0))
  | _ => track =? 1001
  end.
(** What a refused call gives back: -1, or nothing if it has no value to return. *)
Definition refusal (c : call) : answer :=
  match c with
  | ASetMatrix _ | AGetSampleFormat _ | AGetMapping _ => Nothing
  | AGetRate _ => Real (dOfZ (-1))
  | _ => Num (-1)
  end.
(** The answers of a history: the refused calls' are refusals, the others' are [l]. *)
Fixpoint interleave (toRead : bool) (hist : list (bool * Z * call)) (l : list answer) : list answer :=
  match hist with
  | [] => []
  | x :: hist => if acceptable toRead x then match l with a :: l => a :: interleave toRead hist l | [] => [] end
                 else refusal (snd x) :: interleave toRead hist l
  end.

(** The settings an application can ask for: of the file and of its virtual format. *)
Record reported := Rep {
  p_channels : Z; p_order : Z; p_rate : spec_float; p_sf : Z; p_width : Z; p_map : pcmInfo;
  p_vchannels : Z; p_vorder : Z; p_vrate : spec_float; p_vsf : Z; p_vwidth : Z; p_vmap : pcmInfo }.
Definition told (p : reported) (c : call) : answer :=
  match c with
  | AGetChannels v => Num (if v then p_vchannels p else p_channels p)
  | AGetByteOrder v => Num (if v then p_vorder p else p_order p)
  | AGetRate v => Real (if v then p_vrate p else p_rate p)
  | AGetSampleFormat v => Two (if v then p_vsf p else p_sf p) (if v then p_vwidth p else p_width p)
  | AGetMapping v => Mapping (if v then p_vmap p else p_map p)
  | _ => Nothing
  end.
Definition getter (c : call) : Prop := match c with AGetChannels _ | AGetByteOrder _ | AGetRate _ | AGetSampleFormat _ | AGetMapping _ => True | _ => False end.
(** The mapping that gives a sample format its full scale: integers are stored in whole bytes. *)
Definition fullScale (sf w : Z) : pcmInfo :=
  let m a b c d := {| slope := dOfZ a; intercept := dOfZ b; minClip := dOfZ c; maxClip := dOfZ d |} in
  let half := 2 ^ (8 * ((w + 7) / 8) - 1) in
  if sf =? 401 then m half 0 (- half) (half - 1) else if sf =? 402 then m half half 0 (2 * half - 1) else m 1 0 0 0.
(** What an accepted call does to them: the setters set what their names say, a sample format comes with its full scale, and floating-point
    samples have the width of their type; nothing else changes anything. *)
Definition changes (p : reported) (c : call) : reported :=
  match c with
  | ASetByteOrder o => Rep (p_channels p) (p_order p) (p_rate p) (p_sf p) (p_width p) (p_map p) (p_vchannels p) o (p_vrate p) (p_vsf p) (p_vwidth p) (p_vmap p)
  | ASetSampleFormat sf w => Rep (p_channels p) (p_order p) (p_rate p) (p_sf p) (p_width p) (p_map p) (p_vchannels p) (p_vorder p) (p_vrate p)
      sf (if sf =? 403 then 32 else if sf =? 404 then 64 else w) (fullScale sf w)
  | ASetChannels n => Rep (p_channels p) (p_order p) (p_rate p) (p_sf p) (p_width p) (p_map p) n (p_vorder p) (p_vrate p) (p_vsf p) (p_vwidth p) (p_vmap p)
  | ASetRate r => Rep (p_channels p) (p_order p) (p_rate p) (p_sf p) (p_width p) (p_map p) (p_vchannels p) (p_vorder p) r (p_vsf p) (p_vwidth p) (p_vmap p)
  | ASetMapping m => Rep (p_channels p) (p_order p) (p_rate p) (p_sf p) (p_width p) (p_map p) (p_vchannels p) (p_vorder p) (p_vrate p) (p_vsf p) (p_vwidth p) m
  | ASetTrackMapping m => Rep (p_channels p) (p_order p) (p_rate p) (p_sf p) (p_width p) m (p_vchannels p) (p_vorder p) (p_vrate p) (p_vsf p) (p_vwidth p) (p_vmap p)
  | _ => p
  end.
Definition settingsAfter (toRead : bool) (p : reported) (hist : list (bool * Z * call)) : reported :=
  fold_left (fun p x => if acceptable toRead x then changes p (snd x) else p) hist p.

Lemma Ok_inj A (a b : A) : Ok a = Ok b -> a = b. Proof. congruence. Qed.
Arguments Ok_inj {A a b}.
Section Api.
Context {B : Build}.
Context {E : Type}.
Variables (wrapv : bool) (host : order) (rc : codec frame) (wc : wcodec frame E) (junk : frame) (seekok : bool) (upd : file -> wtrack -> file) (cap : Z).
Notation astep := (astep wrapv host rc wc junk seekok upd cap).
Notation arun := (arun wrapv host rc wc junk seekok upd cap).
Definition readable (h : handle (E := E)) : bool := match h with OpenedToRead _ => true | OpenedToWrite _ => false end.

(** ** A refused call *)
Lemma refused_step h valid track c : acceptable (readable h) (valid, track, c) = false -> astep h valid track c = Ok (refusal c, h).
Proof.
  unfold acceptable, API.astep, onTrack, AF_DEFAULT_TRACK. destruct valid; cbn [andb negb].
  2: { intros _. destruct c; reflexivity. }
  assert (Hs : forall sf w, ((sf =? 403) || (sf =? 404) || ((sf =? 401) || (sf =? 402)) && (1 <=? w) && (w <=? 32)) = false ->
    match sampfmtOf sf with None => True | Some s => forall f, setSampleFormat f s w = None end).
  { intros sf w H. unfold sampfmtOf. destruct (Z.eqb_spec sf 402); [|destruct (Z.eqb_spec sf 401); [|destruct (Z.eqb_spec sf 403); [exfalso; lia|destruct (Z.eqb_spec sf 404); [exfalso; lia|exact I]]]];
      intros f; unfold setSampleFormat; replace ((w <? 1) || (32 <? w)) with true by lia; reflexivity. }
  destruct c; cbn [refusal]; intros H; try discriminate H; destruct h as [v|y]; cbn [readable andb negb] in H; try reflexivity;
    try (rewrite H; reflexivity); destruct (track =? 1001); try reflexivity; cbn [negb andb] in *; try discriminate H.
  - unfold orderOf. destruct (o =? 501); [discriminate H|]. destruct (o =? 502); [discriminate H|]. reflexivity.
  - unfold orderOf. destruct (o =? 501); [discriminate H|]. destruct (o =? 502); [discriminate H|]. reflexivity.
  - specialize (Hs sf w H). destruct (sampfmtOf sf); [|reflexivity]. cbn [both vstep]. rewrite Hs. reflexivity.
  - specialize (Hs sf w H). destruct (sampfmtOf sf); [|reflexivity]. cbn [both ycall]. rewrite Hs. reflexivity.
  - cbn [both vstep]. change (S754_zero false) with (dOfZ 0). destruct (SFltb r (dOfZ 0)); [reflexivity|discriminate H].
  - cbn [both ycall]. change (S754_zero false) with (dOfZ 0). destruct (SFltb r (dOfZ 0)); [reflexivity|discriminate H].
Qed.

(** A file stays open the way it was opened. *)
Lemma step_readable h valid track c a h' : astep h valid track c = Ok (a, h') -> readable h' = readable h.
Proof.
  assert (R : forall x, ofRead (E := E) x = Ok (a, h') -> readable h' = true).
  { intros x H. apply rbind_Ok in H. destruct H as ([z v] & _ & H). assert (h' = OpenedToRead v) as -> by congruence. reflexivity. }
  assert (W : forall x, ofWrite (E := E) x = Ok (a, h') -> readable h' = false).
  { intros x H. apply rbind_Ok in H. destruct H as ([z v] & _ & H). assert (h' = OpenedToWrite v) as -> by congruence. reflexivity. }
  assert (Bo : forall o, both wrapv host rc seekok cap h o = Ok (a, h') -> readable h' = readable h).
  { intros o H. destruct h as [v|y]; [exact (R _ H)|exact (W _ H)]. }
  assert (Id : forall x, Ok (x, h) = Ok (a, h') -> readable h' = readable h) by (intros x H; congruence).
  assert (T : forall v t r k, onTrack v t h r k = Ok (a, h') -> (k = Ok (a, h') -> readable h' = readable h) -> readable h' = readable h).
  { intros v t r k H K. unfold onTrack in H. destruct (negb v); [exact (Id _ H)|]. destruct (negb (t =? AF_DEFAULT_TRACK)); [exact (Id _ H)|exact (K H)]. }
  intros H. destruct c; cbn [API.astep] in H;
    try (destruct (negb valid); [exact (Id _ H)|]; destruct h as [v|y]; try exact (Id _ H); try (apply (T _ _ _ _ H); intros K); eauto; fail);
    apply (T _ _ _ _ H); intros K; try exact (Id _ K); try exact (Bo _ K).
  - destruct (orderOf o); [exact (Bo _ K)|exact (Id _ K)].
  - destruct (sampfmtOf sf); [exact (Bo _ K)|exact (Id _ K)].
  - apply rbind_Ok in K. destruct K as ([z v] & K & K2). assert (v = h') as -> by congruence. clear K2.
    destruct h as [r|y]; cbn [both] in K; apply rbind_Ok in K; destruct K as ([z' v'] & _ & K); [assert (h' = OpenedToRead v') as -> by congruence|assert (h' = OpenedToWrite v') as -> by congruence]; reflexivity.
Qed.

Lemma interleaved hist : forall h, arun h hist = do (l, h') <- arun h (filter (acceptable (readable h)) hist); Ok (interleave (readable h) hist l, h').
Proof.
  induction hist as [|[[v t] c] hist IH]; intros h; [reflexivity|]. cbn [filter interleave API.arun].
  destruct (acceptable (readable h) (v, t, c)) eqn:Ea.
  - cbn [API.arun]. destruct (astep h v t c) as [[a h1]| | |] eqn:Es; cbn [rbind]; try reflexivity.
    pose proof (step_readable _ _ _ _ _ _ Es) as Er. rewrite IH, Er. destruct (arun h1 _) as [[l h2]| | |]; reflexivity.
  - rewrite (refused_step _ _ _ _ Ea). cbn [rbind]. rewrite IH. destruct (arun h _) as [[l h2]| | |]; reflexivity.
Qed.

(** ** Settings *)
Definition reports (h : handle (E := E)) (p : reported) : Prop := forall c, getter c -> astep h true 1001 c = Ok (told p c, h).
Definition fieldsOf (h : handle (E := E)) : reported :=
  let f := fileFormat h in let u := userFormat h in
  Rep (channelCount f) (orderNumber (byteOrder f)) (fileRate h) (sampfmtNumber (sampleFormat f)) (sampleWidth f) (pcm f)
      (channelCount u) (orderNumber (byteOrder u)) (userRate h) (sampfmtNumber (sampleFormat u)) (sampleWidth u) (pcm u).
Lemma reports_fields h : reports h (fieldsOf h).
Proof. intros c. destruct c; cbn [getter]; intros []; destruct virtual; reflexivity. Qed.
Lemma reports_unique h p : reports h p -> p = fieldsOf h.
Proof.
  intros H. pose proof (reports_fields h) as F.
  assert (G : forall c, getter c -> told p c = told (fieldsOf h) c) by (intros c Hc; pose proof (H c Hc); pose proof (F c Hc); congruence).
  pose proof (G (AGetChannels true) I). pose proof (G (AGetChannels false) I). pose proof (G (AGetByteOrder true) I). pose proof (G (AGetByteOrder false) I).
  pose proof (G (AGetRate true) I). pose proof (G (AGetRate false) I). pose proof (G (AGetSampleFormat true) I). pose proof (G (AGetSampleFormat false) I).
  pose proof (G (AGetMapping true) I). pose proof (G (AGetMapping false) I). clear G H F. destruct p. cbn [told p_channels p_order p_rate p_sf p_width p_map p_vchannels p_vorder p_vrate p_vsf p_vwidth p_vmap fieldsOf] in *. unfold fieldsOf. congruence.
Qed.

(** the fields that are reported do not change when a chain is built, frames are read or written, or the position is moved *)
Definition sameV (v v' : vstate) : Prop := v_file v' = v_file v /\ v_user v' = v_user v /\ v_frate v' = v_frate v /\ v_vrate v' = v_vrate v.
Definition sameY (y y' : ystate E) : Prop := y_file y' = y_file y /\ y_user y' = y_user y /\ y_frate y' = y_frate y /\ y_vrate y' = y_vrate y.
Lemma sameV_refl v : sameV v v. Proof. repeat split. Qed.
Lemma sameY_refl v : sameY v v. Proof. repeat split. Qed.
Lemma sameV_trans a b d : sameV a b -> sameV b d -> sameV a d. Proof. unfold sameV. intuition congruence. Qed.
Lemma setup_same v v' : setup wrapv host rc v = Ok (Some v') -> sameV v v'.
Proof.
  unfold setup. intros H. apply rbind_Ok in H. destruct H as (fp & _ & H). destruct (compressed (v_user v)); [discriminate H|].
  apply rbind_Ok in H. destruct H as ([ms|] & _ & H); [|discriminate H].
  apply rbind_Ok in H. destruct H as (tv & _ & H). apply rbind_Ok in H. destruct H as (nv & _ & H). apply Ok_inj in H.
  assert (v' = VS (v_file v) (v_frate v) (v_user v) (v_vrate v) (v_matrix v) false ms (resetAt rc fp nv tv (v_rs v))) as -> by congruence. repeat split.
Qed.
Lemma refresh_same v v' : refresh wrapv host rc v = Ok (Some v') -> sameV v v'.
Proof. unfold refresh. destruct (v_dirty v); [apply setup_same|]. intros H. assert (v' = v) as -> by congruence. apply sameV_refl. Qed.
Lemma vRead_same v n a v' : vRead wrapv host rc seekok v n = Ok (a, v') -> sameV v v'.
Proof.
  unfold vRead. intros H. apply rbind_Ok in H. destruct H as ([u|] & Hr & H).
  - apply rbind_Ok in H. destruct H as ([l r] & _ & H). assert (v' = onRS u r) as -> by congruence. apply (sameV_trans _ _ _ (refresh_same _ _ Hr)). repeat split.
  - assert (v' = v) as -> by congruence. apply sameV_refl.
Qed.
Lemma vSeek_same v k a v' : vSeek wrapv host rc v k = Ok (a, v') -> sameV v v'.
Proof.
  unfold vSeek. intros H. apply rbind_Ok in H. destruct H as ([u|] & Hr & H); [|assert (v' = v) as -> by congruence; apply sameV_refl].
  apply (sameV_trans _ _ _ (refresh_same _ _ Hr)). destruct (k <? 0); [assert (v' = u) as -> by congruence; apply sameV_refl|].
  destruct (k =? t_nextv (rs_track (v_rs u))); [assert (v' = u) as -> by congruence; apply sameV_refl|]. cbv zeta in H.
  match type of H with context [setup _ _ _ ?x] => set (w := x) in H end.
  apply rbind_Ok in H. destruct H as (o & Hs & H). assert (Hw : sameV u w) by (repeat split). apply Ok_inj in H.
  destruct o as [x|]; [assert (v' = x) as -> by congruence; exact (sameV_trans _ _ _ Hw (setup_same _ _ Hs))|assert (v' = w) as -> by congruence; exact Hw].
Qed.
Lemma vFrameCount_same v a v' : vFrameCount wrapv host rc v = Ok (a, v') -> sameV v v'.
Proof.
  unfold vFrameCount. intros H. apply rbind_Ok in H. destruct H as (o & Hs & H). apply Ok_inj in H.
  destruct o as [u|]; [assert (v' = u) as -> by congruence; exact (refresh_same _ _ Hs)|assert (v' = v) as -> by congruence; apply sameV_refl].
Qed.
Lemma yrefresh_same y y' : yrefresh wrapv host cap y = Ok (Some y') -> sameY y y'.
Proof.
  unfold yrefresh. destruct (y_dirty y); [|intros H; assert (y' = y) as -> by congruence; apply sameY_refl].
  unfold ysetup. intros H. apply rbind_Ok in H. destruct H as (fp & _ & H). destruct (compressed (y_user y)); [discriminate H|].
  apply rbind_Ok in H. destruct H as ([ms|] & _ & H); [|discriminate H]. apply rbind_Ok in H. destruct H as (n & _ & H).
  match type of H with Ok (Some ?x) = _ => assert (y' = x) as -> by congruence end. repeat split.
Qed.
Lemma yWrite_same y l a y' : yWrite wrapv host wc junk seekok cap y l = Ok (a, y') -> sameY y y'.
Proof.
  unfold yWrite. intros H. apply rbind_Ok in H. destruct H as ([u|] & Hr & H); [|assert (y' = y) as -> by congruence; apply sameY_refl].
  apply rbind_Ok in H. destruct H as (l' & _ & H). apply rbind_Ok in H. destruct H as ([n w] & _ & H). assert (y' = onWS u w) as -> by congruence.
  pose proof (yrefresh_same _ _ Hr) as S. exact S.
Qed.
Lemma ySync_same y a y' : ySync wrapv host wc junk seekok upd cap y = Ok (a, y') -> sameY y y'.
Proof.
  unfold ySync. intros H. apply rbind_Ok in H. destruct H as ([u|] & Hr & H); [|assert (y' = y) as -> by congruence; apply sameY_refl].
  apply rbind_Ok in H. destruct H as (w & _ & H). assert (y' = onWS u w) as -> by congruence. pose proof (yrefresh_same _ _ Hr) as S. exact S.
Qed.
Lemma yFrameCount_same y a y' : yFrameCount wrapv host cap y = Ok (a, y') -> sameY y y'.
Proof.
  unfold yFrameCount. intros H. apply rbind_Ok in H. destruct H as (o & Hs & H). apply Ok_inj in H.
  destruct o as [u|]; [assert (y' = u) as -> by congruence; exact (yrefresh_same _ _ Hs)|assert (y' = y) as -> by congruence; apply sameY_refl].
Qed.
Lemma fieldsR v v' : sameV v v' -> fieldsOf (OpenedToRead v') = fieldsOf (OpenedToRead v).
Proof. unfold sameV, fieldsOf. cbn [fileFormat userFormat fileRate userRate]. intros (-> & -> & -> & ->). reflexivity. Qed.
Lemma fieldsW y y' : sameY y y' -> fieldsOf (OpenedToWrite y') = fieldsOf (OpenedToWrite y).
Proof. unfold sameY, fieldsOf. cbn [fileFormat userFormat fileRate userRate]. intros (-> & -> & -> & ->). reflexivity. Qed.

Lemma set_format u sf w : ((sf =? 403) || (sf =? 404) || ((sf =? 401) || (sf =? 402)) && (1 <=? w) && (w <=? 32)) = true ->
  exists s g, sampfmtOf sf = Some s /\ setSampleFormat u s w = Some g /\ sampfmtNumber (sampleFormat g) = sf /\
    sampleWidth g = (if sf =? 403 then 32 else if sf =? 404 then 64 else w) /\ pcm g = fullScale sf w /\ channelCount g = channelCount u /\ byteOrder g = byteOrder u.
Proof.
  intros H. destruct (Z.eqb_spec sf 403) as [->|N3]; [eexists; eexists; repeat split|]. destruct (Z.eqb_spec sf 404) as [->|N4]; [eexists; eexists; repeat split|].
  assert (Hw : 1 <= w <= 32) by lia. assert (Hq : Z.quot (w + 7) 8 = (w + 7) / 8) by (apply Z.quot_div_nonneg; lia).
  assert (Hr : (w + 7) / 8 = 1 \/ (w + 7) / 8 = 2 \/ (w + 7) / 8 = 3 \/ (w + 7) / 8 = 4) by lia.
  assert (Hf : sf = 401 \/ sf = 402) by lia.
  destruct Hf as [->| ->]; destruct Hr as [Hr|[Hr|[Hr|Hr]]]; (eexists; eexists; (split; [reflexivity|])); unfold setSampleFormat; replace ((w <? 1) || (32 <? w)) with false by lia;
    unfold fullScale; cbn [Z.eqb Pos.eqb]; rewrite Hq, Hr; (split; [reflexivity|]); (split; [reflexivity|]); (split; [reflexivity|]); (split; [vm_compute; reflexivity|]); split; reflexivity.
Qed.
Lemma accepted_step h v t c a h' : acceptable (readable h) (v, t, c) = true -> astep h v t c = Ok (a, h') -> fieldsOf h' = changes (fieldsOf h) c.
Proof.
  unfold acceptable. intros Ha H. apply andb_true_iff in Ha. destruct Ha as [-> Ha]. cbn [negb] in H.
  assert (R : forall v x, ofRead (E := E) x = Ok (a, h') -> (forall z u, x = Ok (z, u) -> sameV v u) -> fieldsOf h' = fieldsOf (OpenedToRead v)).
  { intros u x K S. apply rbind_Ok in K. destruct K as ([z u'] & -> & K). assert (h' = OpenedToRead u') as -> by congruence. apply fieldsR. exact (S _ _ eq_refl). }
  assert (W : forall v x, ofWrite (E := E) x = Ok (a, h') -> (forall z u, x = Ok (z, u) -> sameY v u) -> fieldsOf h' = fieldsOf (OpenedToWrite v)).
  { intros u x K S. apply rbind_Ok in K. destruct K as ([z u'] & -> & K). assert (h' = OpenedToWrite u') as -> by congruence. apply fieldsW. exact (S _ _ eq_refl). }
  assert (T : forall t r k, t =? 1001 = true -> onTrack true t h r k = Ok (a, h') -> k = Ok (a, h')).
  { intros t' r k Ht K. unfold onTrack, AF_DEFAULT_TRACK in K. rewrite Ht in K. exact K. }
  assert (N : forall (x : answer) y, Ok (x, y) = Ok (a, h') -> h' = y) by (intros; congruence).
  destruct c; cbn [API.astep changes negb] in H |- *; try (apply (T _ _ _ Ha) in H; rewrite (N _ _ H); reflexivity).
  - destruct h as [u|y]; cbn [readable] in Ha; [|discriminate Ha]. apply (T _ _ _ Ha) in H. apply (R _ _ H). intros z u' K. exact (vRead_same _ _ _ _ K).
  - destruct h as [u|y]; cbn [readable] in Ha; [discriminate Ha|]. apply (T _ _ _ Ha) in H. apply (W _ _ H). intros z u' K. exact (yWrite_same _ _ _ _ K).
  - destruct h as [u|y]; cbn [readable] in Ha; [|discriminate Ha]. apply (T _ _ _ Ha) in H. apply (R _ _ H). intros z u' K. exact (vSeek_same _ _ _ _ K).
  - destruct h as [u|y]; cbn [readable] in Ha; [|discriminate Ha]. apply (T _ _ _ Ha) in H. apply (R _ _ H). intros z u' K. exact (vSeek_same _ _ _ _ K).
  - destruct h as [u|y]; [rewrite (N _ _ H); reflexivity|]. apply (W _ _ H). intros z u' K. exact (ySync_same _ _ _ K).
  - apply (T _ _ _ Ha) in H. destruct h as [u|y]; [apply (R _ _ H); intros z u' K; exact (vFrameCount_same _ _ _ K)|apply (W _ _ H); intros z u' K; exact (yFrameCount_same _ _ _ K)].
  - apply andb_true_iff in Ha. destruct Ha as [Ht Ha]. apply (T _ _ _ Ht) in H. unfold orderOf in H.
    destruct (Z.eqb_spec o 501) as [->|]; [|destruct (Z.eqb_spec o 502) as [->|]; [|discriminate Ha]]; destruct h as [u|y]; rewrite (N _ _ H); reflexivity.
  - apply andb_true_iff in Ha. destruct Ha as [Ht Ha]. apply (T _ _ _ Ht) in H.
    destruct (set_format (userFormat h) sf w Ha) as (s & g & E1 & E2 & E3 & E4 & E5 & E6 & E7). rewrite E1 in H.
    destruct h as [u|y]; cbn [both vstep ycall userFormat] in *; rewrite E2 in H; rewrite (N _ _ H); unfold fieldsOf; cbn [fileFormat userFormat fileRate userRate dirtyWith ydirtyWith v_file v_user v_frate v_vrate y_file y_user y_frate y_vrate];
      rewrite E3, E4, E5, E6, E7; reflexivity.
  - apply (T _ _ _ Ha) in H. destruct h as [u|y]; rewrite (N _ _ H); reflexivity.
  - apply andb_true_iff in Ha. destruct Ha as [Ht Ha]. apply (T _ _ _ Ht) in H. apply negb_true_iff in Ha. change (dOfZ 0) with (S754_zero false) in Ha.
    destruct h as [u|y]; cbn [both vstep ycall] in H; rewrite Ha in H; rewrite (N _ _ H); reflexivity.
  - apply (T _ _ _ Ha) in H. destruct h as [u|y]; rewrite (N _ _ H); reflexivity.
  - apply (T _ _ _ Ha) in H. destruct h as [u|y]; rewrite (N _ _ H); reflexivity.
  - apply (T _ _ _ Ha) in H. apply rbind_Ok in H. destruct H as ([z h2] & K & H). assert (h2 = h') as -> by congruence. clear H.
    destruct h as [u|y]; cbn [both vstep ycall] in K; (destruct m as [m|]; [match type of K with context [if ?b then _ else _] => destruct b; [|discriminate K] end|]); unfold ofRead, ofWrite in K; cbn [rbind] in K;
      match type of K with Ok (_, ?x) = _ => assert (h' = x) as -> by congruence end; reflexivity.
Qed.
Lemma settings_run hist : forall h outs h', arun h hist = Ok (outs, h') -> fieldsOf h' = settingsAfter (readable h) (fieldsOf h) hist.
Proof.
  induction hist as [|[[v t] c] hist IH]; intros h outs h' H; cbn [API.arun] in H.
  - assert (h' = h) as -> by congruence. reflexivity.
  - apply rbind_Ok in H. destruct H as ([a h1] & Hs & H). apply rbind_Ok in H. destruct H as ([as' h2] & Hr & H). assert (h2 = h') as -> by congruence. clear H.
    rewrite (IH _ _ _ Hr), (step_readable _ _ _ _ _ _ Hs). unfold settingsAfter. cbn [fold_left snd]. f_equal.
    destruct (acceptable (readable h) (v, t, c)) eqn:Ea; [exact (accepted_step _ _ _ _ _ _ Ea Hs)|].
    rewrite (refused_step _ _ _ _ Ea) in Hs. assert (h1 = h) as -> by congruence. reflexivity.
Qed.
End Api.
Arguments reports {B E}.

(** ** The theorems *)

(** A call that is refused answers with its failure value and has no effect whatever on the others: they answer as if it had not been made,
    and the file ends in the same state. *)
Theorem C78_refused_calls_have_no_effect :
  forall (B : Build) E wrapv host rc (wc : wcodec frame E) junk seekok upd cap h hist,
    arun wrapv host rc wc junk seekok upd cap h hist =
      do (l, h') <- arun wrapv host rc wc junk seekok upd cap h (filter (acceptable (readable h)) hist); Ok (interleave (readable h) hist l, h').
Proof. intros. apply interleaved. Qed.
Print Assumptions C78_refused_calls_have_no_effect.

(** After any history of calls the functions that report settings report what the accepted calls have set, and what was reported before
    if nothing was set. *)
Theorem C78_settings_are_reported :
  forall (B : Build) E wrapv host rc (wc : wcodec frame E) junk seekok upd cap h p hist outs h',
    reports wrapv host rc wc junk seekok upd cap h p ->
    arun wrapv host rc wc junk seekok upd cap h hist = Ok (outs, h') ->
    reports wrapv host rc wc junk seekok upd cap h' (settingsAfter (readable h) p hist).
Proof.
  intros B E wrapv host rc wc junk seekok upd cap h p hist outs h' Hr H. apply reports_unique in Hr. subst p.
  rewrite <- (settings_run _ _ _ _ _ _ _ _ _ _ _ _ H). apply reports_fields.
Qed.
Print Assumptions C78_settings_are_reported.

(** What is reported right after opening.  For reading: the virtual format is the file's in the machine's byte order. *)
Theorem C78_settings_after_opening :
  forall (B : Build) E wrapv host rc (wc : wcodec frame E) junk seekok upd cap f rate bytes first total,
    let sf := sampfmtNumber (sampleFormat f) in
    reports wrapv host rc wc junk seekok upd cap (OpenedToRead (vopen host rc f rate bytes first total))
      (Rep (channelCount f) (orderNumber (byteOrder f)) rate sf (sampleWidth f) (pcm f)
           (channelCount f) (orderNumber host) rate sf (sampleWidth f) (pcm f)).
Proof. intros. apply reports_fields. Qed.
Print Assumptions C78_settings_after_opening.

(** ... and for writing: the file's and the virtual format afOpenFile made from the setup. *)
Theorem C78_settings_after_opening_for_writing :
  forall (B : Build) E wrapv host rc (wc : wcodec frame E) junk seekok upd cap f v rate hdr first e,
    reports wrapv host rc wc junk seekok upd cap (OpenedToWrite (yopen wc cap f v rate hdr first e))
      (Rep (channelCount f) (orderNumber (byteOrder f)) rate (sampfmtNumber (sampleFormat f)) (sampleWidth f) (pcm f)
           (channelCount v) (orderNumber (byteOrder v)) rate (sampfmtNumber (sampleFormat v)) (sampleWidth v) (pcm v)).
Proof. intros. apply reports_fields. Qed.
Print Assumptions C78_settings_after_opening_for_writing.

(** ** Everything a file opened for reading answers *)
(** The calls that concern frames or set something, as in C69. *)
Definition dataCall (c : call) : option vop :=
  match c with
  | ARead n => Some (VRead n)
  | ASeek k => Some (VSeek k)
  | ATell => Some VTell
  | AFrameCount => Some VFrameCount
  | ASetByteOrder o => Some (SetByteOrder (if o =? 501 then BigEndian else LittleEndian))
  | ASetSampleFormat sf w => Some (SetSampleFormat (if sf =? 401 then TWOSCOMP else if sf =? 402 then UNSIGNED else if sf =? 403 then FLOAT else DOUBLE) w)
  | ASetChannels n => Some (SetChannels n)
  | ASetRate r => Some (SetRate r)
  | ASetMapping p => Some (SetMapping p)
  | ASetTrackMapping p => Some (SetTrackMapping p)
  | ASetMatrix m => Some (SetMatrix m)
  | _ => None
  end.
Definition dataCalls (hist : list (bool * Z * call)) : list vop :=
  flat_map (fun x => if acceptable true x then match dataCall (snd x) with Some o => [o] | None => [] end else []) hist.
Definition asAnswer (c : call) (r : rout (res frame)) : answer :=
  match c, r with ASetMatrix _, _ => Nothing | _, Number z => Num z | _, Frames l => Got l end.
(** All answers of a history, from those of its data calls: refusals, the settings in force, and success for afSyncFile, which does
    nothing to a file opened for reading. *)
Fixpoint answersOf (p : reported) (hist : list (bool * Z * call)) (l : list (rout (res frame))) : list answer :=
  match hist with
  | [] => []
  | x :: hist =>
      let c := snd x in
      if acceptable true x then
        match dataCall c with
        | Some _ => match l with r :: l => asAnswer c r :: answersOf (changes p c) hist l | [] => [] end
        | None => (match c with ASync => Num 0 | _ => told p c end) :: answersOf p hist l
        end
      else refusal c :: answersOf p hist l
  end.

Section Reading.
Context {B : Build} {E : Type}.
Variables (wrapv : bool) (host : order) (rc : codec frame) (wc : wcodec frame E) (junk : frame) (seekok : bool) (upd : file -> wtrack -> file) (cap : Z).
Notation astep := (astep wrapv host rc wc junk seekok upd cap).
Notation arun := (arun wrapv host rc wc junk seekok upd cap).
Lemma data_step st v t c o r st' : acceptable true (v, t, c) = true -> dataCall c = Some o -> vstep wrapv host rc seekok st o = Ok (r, st') ->
  astep (OpenedToRead st) v t c = Ok (asAnswer c r, OpenedToRead st').
Proof.
  unfold acceptable. intros Ha Hd H. apply andb_true_iff in Ha. destruct Ha as [-> Ha].
  assert (T : forall h x k, t =? 1001 = true -> onTrack (E := E) true t h x k = k) by (intros h x k Ht; unfold onTrack, AF_DEFAULT_TRACK; rewrite Ht; reflexivity).
  destruct c; cbn [dataCall] in Hd; try discriminate Hd;
    match type of Hd with Some ?x = _ => assert (o = x) as -> by congruence end; clear Hd; cbn [API.astep negb andb] in *;
    try (rewrite T by exact Ha; cbn [both]; cbn [vstep] in H |- *; rewrite ?H; unfold ofRead; cbn [rbind]; try rewrite H; destruct r; reflexivity).
  - apply andb_true_iff in Ha. destruct Ha as [Ht Ha]. rewrite T by exact Ht. unfold orderOf. destruct (Z.eqb_spec o0 501) as [->|]; [|destruct (Z.eqb_spec o0 502) as [->|]; [|discriminate Ha]];
      cbn [both]; rewrite H; unfold ofRead; cbn [rbind]; destruct r; reflexivity.
  - apply andb_true_iff in Ha. destruct Ha as [Ht Ha]. rewrite T by exact Ht. unfold sampfmtOf.
    destruct (Z.eqb_spec sf 402) as [->|]; [|destruct (Z.eqb_spec sf 401) as [->|]; [|destruct (Z.eqb_spec sf 403) as [->|]; [|destruct (Z.eqb_spec sf 404) as [->|]; [|exfalso; lia]]]];
      cbn [both]; cbn [Z.eqb Pos.eqb] in H; rewrite H; unfold ofRead; cbn [rbind]; destruct r; reflexivity.
  - apply andb_true_iff in Ha. destruct Ha as [Ht Ha]. rewrite T by exact Ht. cbn [both]; rewrite H; unfold ofRead; cbn [rbind]; destruct r; reflexivity.
Qed.
Lemma all_answers hist : forall st l, vrun wrapv host rc seekok st (dataCalls hist) = Ok l ->
  exists h', arun (OpenedToRead st) hist = Ok (answersOf (fieldsOf (E := E) (OpenedToRead st)) hist l, h').
Proof.
  induction hist as [|[[v t] c] hist IH]; intros st l H; [eexists; reflexivity|]. cbn [dataCalls flat_map snd answersOf] in *. cbv zeta. cbn [API.arun].
  destruct (acceptable true (v, t, c)) eqn:Ea.
  2: { rewrite (refused_step wrapv host rc wc junk seekok upd cap (OpenedToRead st) v t c Ea). cbn [rbind]. destruct (IH st l H) as (h' & Eh). exists h'. rewrite Eh. reflexivity. }
  destruct (dataCall c) as [o|] eqn:Ed.
  - cbn [app vrun] in H. apply rbind_Ok in H. destruct H as ([r st'] & Hs & H). apply rbind_Ok in H. destruct H as (l' & Hr & H). assert (l = r :: l') as -> by congruence.
    pose proof (data_step _ _ _ _ _ _ _ Ea Ed Hs) as Hd. rewrite Hd. cbn [rbind]. destruct (IH st' l' Hr) as (h' & Eh). exists h'. rewrite Eh.
    rewrite (accepted_step wrapv host rc wc junk seekok upd cap (OpenedToRead st) v t c _ _ Ea Hd). reflexivity.
  - cbn [app] in H. assert (Hc : astep (OpenedToRead st) v t c = Ok ((match c with ASync => Num 0 | _ => told (fieldsOf (E := E) (OpenedToRead st)) c end), OpenedToRead st)).
    { pose proof (reports_fields wrapv host rc wc junk seekok upd cap (OpenedToRead st) c) as Hf. unfold acceptable in Ea. apply andb_true_iff in Ea. destruct Ea as [-> Ea].
      destruct c; try discriminate Ed; try discriminate Ea; try (assert (t = 1001) as -> by lia; exact (Hf I)). reflexivity. }
    rewrite Hc. cbn [rbind]. destruct (IH st l H) as (h' & Eh). exists h'. rewrite Eh. reflexivity.
Qed.
End Reading.

(** Under the conditions of C69 every history of calls, with whatever arguments, gets the answers that [answersOf] describes: the data
    calls those of an array of frames seen through the settings ([srun], C69), the others refusals and settings. *)
Theorem C78_every_answer_while_reading :
  forall (B : Build) E (wc : wcodec frame E) junk upd cap wrapv host c f rate bytes first total frames hist,
    holds c bytes first total frames -> total < 2 ^ 48 -> usualRate rate ->
    PropertiesVirtual.legal wrapv host rate total (PropertiesVirtual.initial host f) 0 true false (dataCalls hist) ->
    exists h',
      arun wrapv host c wc junk true upd cap (OpenedToRead (vopen host c f rate bytes first total)) hist =
        Ok (answersOf (Rep (channelCount f) (orderNumber (byteOrder f)) rate (sampfmtNumber (sampleFormat f)) (sampleWidth f) (pcm f)
                           (channelCount f) (orderNumber host) rate (sampfmtNumber (sampleFormat f)) (sampleWidth f) (pcm f)) hist
              (PropertiesVirtual.srun wrapv host frames (PropertiesVirtual.initial host f) 0 (dataCalls hist)), h').
Proof.
  intros B E wc junk upd cap wrapv host c f rate bytes first total frames hist H HT HR L.
  apply (all_answers wrapv host c wc junk true upd cap hist). exact (PropertiesVirtual.C69_reads_follow_the_settings B wrapv host c f rate bytes first total frames _ H HT HR L).
Qed.
Print Assumptions C78_every_answer_while_reading.

(** Every number of channels is accepted for the virtual format: with none at all, reading goes on and delivers frames without samples. *)
Theorem C78_channel_count_refuted :
  forall (B : Build) E (wc : wcodec frame E) junk upd cap, exists h',
    arun true LittleEndian PropertiesVirtual.exCodec wc junk true upd cap
      (OpenedToRead (vopen LittleEndian PropertiesVirtual.exCodec PropertiesVirtual.exStereo (PropertiesVirtual.hz 44100) PropertiesVirtual.exBytes 0 4))
      [(true, 1001, ASetChannels 0); (true, 1001, AGetChannels true); (true, 1001, ARead 2); (true, 1001, ATell)]
      = Ok ([Num 0; Num 0; Got [Some (Ok []); Some (Ok [])]; Num 2], h').
Proof. intros. eexists. vm_compute. reflexivity. Qed.
Print Assumptions C78_channel_count_refuted.

(** The hypotheses are met: a history with a null handle, a track that is not there, a write to a file opened for reading, an unknown byte
    order, a sample width of 33 bits and a negative rate, between calls that are accepted. *)
Definition exHistory : list (bool * Z * call) :=
  [ (true, 1001, ARead 1); (false, 1001, ARead 1); (true, 1, ASeek 3); (true, 1001, AWrite []); (true, 1001, ASetByteOrder 503);
    (true, 1001, ASetSampleFormat 401 33); (true, 1001, ASetSampleFormat 401 32); (true, 1001, ASetRate (dOfZ (-1)));
    (true, 1001, AGetSampleFormat true); (true, 1001, AGetSampleFormat false); (true, 1001, AGetByteOrder true); (true, 1001, ASync); (true, 1001, ARead 1); (true, 1001, ATell) ].
Example C78_example :
  dataCalls exHistory = [VRead 1; SetSampleFormat TWOSCOMP 32; VRead 1; VTell] /\
  PropertiesVirtual.legal true LittleEndian (PropertiesVirtual.hz 44100) 4 (PropertiesVirtual.initial LittleEndian PropertiesVirtual.exStereo) 0 true false (dataCalls exHistory) /\
  forall (B : Build) E (wc : wcodec frame E) junk upd cap, exists h',
    arun true LittleEndian PropertiesVirtual.exCodec wc junk true upd cap
      (OpenedToRead (vopen LittleEndian PropertiesVirtual.exCodec PropertiesVirtual.exStereo (PropertiesVirtual.hz 44100) PropertiesVirtual.exBytes 0 4)) exHistory
      = Ok ([Got [Some (Ok [SI kInt16 1; SI kInt16 3])]; Num (-1); Num (-1); Num (-1); Num (-1); Num (-1); Num 0; Num (-1); Two 401 32; Two 401 16; Num 502; Num 0;
             Got [Some (Ok [SI kInt32 (5 * 65536); SI kInt32 (7 * 65536)])]; Num 2], h').
Proof.
  split; [reflexivity|]. split.
  - change (dataCalls exHistory) with [VRead 1; SetSampleFormat TWOSCOMP 32; VRead 1; VTell]. apply (PropertiesVirtual.ordinary_legal); [lia| |].
    + repeat constructor.
    + split; [discriminate|discriminate].
  - intros. eexists. vm_compute. reflexivity.
Qed.
