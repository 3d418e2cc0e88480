(** * C80: AES channel status data *)
From Verif Require Import Prelude PreludeFacts Metadata MetadataProofs.
From Verif Require Import ByteOrder FileIO Reader Writer WriterSpec Codecs CodecsProofs PropertiesWriter WriterProofs WriterHistory PropertiesRoundTrip HeaderIO FileRoundTrip Float Extended AIFF PropertiesAIFF AES.
From Coq Require Import Lia.

(** ** The specification: what was last stored *)
Inductive acall := GetAES (t : Z) | SetAES (t : Z) (buf : list Z).
Definition astep (h : aesHandle) (c : acall) : aesHandle :=
  match c with
  | GetAES _ => h
  | SetAES t b => match afSetAESChannelData (Some h) t b with Some h' => h' | None => h end
  end.
Definition arun (h : aesHandle) (cs : list acall) : aesHandle := fold_left astep cs h.
Definition lastSet (t : Z) (cs : list acall) (d : list Z) : list Z :=
  fold_left (fun d c => match c with SetAES t' b => if t' =? t then b else d | GetAES _ => d end) cs d.
(** The calls on a setup, and what the last of them asked for. *)
Definition irun (s : option (list trackSetup)) (cs : list (Z * bool)) : option (list trackSetup) := fold_left (fun s c => afInitAESChannelDataTo s (fst c) (snd c)) cs s.
Definition lastAsked (t : Z) (cs : list (Z * bool)) (b : bool) : bool := fold_left (fun b c => if fst c =? t then snd c else b) cs b.
Definition nothing : list Z := zrepeat 0 24.

Lemma set_get h t b t' : afGetAESChannelData (Some (astep h (SetAES t b))) t' =
  match afGetAESChannelData (Some h) t' with (1, Some d) => (1, Some (if ah_writing h && (t =? t') then b else d)) | r => r end.
Proof.
  cbn [astep afSetAESChannelData]. destruct (lookup ta_id t (ah_tracks h)) as [k|] eqn:L.
  - destruct (ah_writing h) eqn:W; cbn [negb andb].
    + destruct (ta_has k) eqn:H; cbn [afGetAESChannelData ah_tracks].
      * rewrite lookup_update by reflexivity. rewrite (Z.eqb_sym t' t). destruct (Z.eqb_spec t t') as [<-|N].
        -- rewrite L. cbn [option_map ta_has ta_data]. rewrite H. reflexivity.
        -- destruct (lookup ta_id t' (ah_tracks h)) as [j|]; [|reflexivity]. destruct (ta_has j); reflexivity.
      * destruct (Z.eqb_spec t t') as [<-|N]; [rewrite L, H; reflexivity|]. destruct (lookup ta_id t' (ah_tracks h)) as [j|]; [|reflexivity]. destruct (ta_has j); reflexivity.
    + cbn [afGetAESChannelData]. destruct (lookup ta_id t' (ah_tracks h)) as [j|]; [|reflexivity]. destruct (ta_has j); reflexivity.
  - cbn [afGetAESChannelData]. destruct (Z.eqb_spec t t') as [<-|N]; [rewrite L; reflexivity|]. rewrite andb_false_r. destruct (lookup ta_id t' (ah_tracks h)) as [j|]; [|reflexivity]. destruct (ta_has j); reflexivity.
Qed.
Lemma step_writing h c : ah_writing (astep h c) = ah_writing h.
Proof. destruct c as [t|t b]; [reflexivity|]. cbn. destruct (lookup ta_id t (ah_tracks h)) as [k|]; [|reflexivity]. destruct (ah_writing h) eqn:W; cbn [negb]; [|exact W]. destruct (ta_has k); [reflexivity|exact W]. Qed.
Lemma run_writing cs : forall h, ah_writing (arun h cs) = ah_writing h.
Proof. induction cs as [|c cs IH]; intros h; [reflexivity|]. cbn [arun fold_left]. fold (arun (astep h c) cs). rewrite IH. apply step_writing. Qed.

(** ** An open file *)
(** After any history of calls on a file: a track it does not have still answers -1, a track without AES data 0 and 24 zero bytes; a track
    with AES data answers 1 and the bytes last stored while the file was open for writing, or those it had when it was opened. *)
Theorem C80_history : forall h cs t,
  let before := afGetAESChannelData (Some h) t in let after := afGetAESChannelData (Some (arun h cs)) t in
  (before = (-1, None) /\ after = (-1, None)) \/ (before = (0, Some nothing) /\ after = (0, Some nothing)) \/
  (exists d, before = (1, Some d) /\ after = (1, Some (if ah_writing h then lastSet t cs d else d))).
Proof.
  intros h cs t. cbv zeta. revert h. induction cs as [|c cs IH]; intros h.
  - cbn [arun fold_left]. unfold lastSet. cbn [fold_left]. cbn [afGetAESChannelData]. destruct (lookup ta_id t (ah_tracks h)) as [k|]; [|auto]. destruct (ta_has k); cbn [negb]; [|auto]. right. right. eexists. split; [reflexivity|]. destruct (ah_writing h); reflexivity.
  - cbn [arun fold_left]. fold (arun (astep h c) cs). specialize (IH (astep h c)). rewrite step_writing in IH.
    assert (C : afGetAESChannelData (Some h) t = (-1, None) \/ afGetAESChannelData (Some h) t = (0, Some nothing) \/ exists d, afGetAESChannelData (Some h) t = (1, Some d)).
    { cbn [afGetAESChannelData]. destruct (lookup ta_id t (ah_tracks h)) as [k|]; [|auto]. destruct (ta_has k); cbn [negb]; eauto. }
    assert (S : afGetAESChannelData (Some (astep h c)) t = match afGetAESChannelData (Some h) t with (1, Some d) => (1, Some (if ah_writing h then lastSet t [c] d else d)) | r => r end).
    { destruct c as [t'|t' b]; [|rewrite set_get].
      - cbn [astep]. destruct C as [->|[->|[d ->]]]; try reflexivity. destruct (ah_writing h); reflexivity.
      - destruct C as [->|[->|[d ->]]]; try reflexivity. unfold lastSet. cbn [fold_left]. destruct (ah_writing h); cbn [andb]; reflexivity. }
    destruct C as [C|[C|[d C]]]; rewrite C in *; rewrite S in IH.
    + left. split; [reflexivity|]. destruct IH as [[_ H]|[[H _]|(d & H & _)]]; [exact H|discriminate|discriminate].
    + right. left. split; [reflexivity|]. destruct IH as [[H _]|[[_ H]|(d & H & _)]]; [discriminate|exact H|discriminate].
    + right. right. exists d. split; [reflexivity|]. destruct IH as [[H _]|[[H _]|(d' & H & R)]]; [discriminate|discriminate|]. rewrite R. destruct (ah_writing h); [|congruence].
      assert (d' = lastSet t [c] d) as -> by congruence. reflexivity.
Qed.
Print Assumptions C80_history.

(** ** A new file *)
(** A file made from a setup has AES data in exactly the tracks for which the last call on the setup (the setup's own value, if there was none)
    asked for it; it is then 24 zero bytes. *)
Theorem C80_new_file : forall ts cs t, exists ts', irun (Some ts) cs = Some ts' /\
  afGetAESChannelData (Some (openWriteAES ts')) t =
    match lookup st_id t ts with None => (-1, None) | Some k => ((if lastAsked t cs (st_aes k) then 1 else 0), Some nothing) end.
Proof.
  intros ts cs t. assert (K : exists ts', irun (Some ts) cs = Some ts' /\ lookup st_id t ts' = option_map (fun k => TrackSetup (st_id k) (lastAsked t cs (st_aes k))) (lookup st_id t ts)).
  { revert ts. induction cs as [|[t' b] cs IH]; intros ts.
    - exists ts. split; [reflexivity|]. unfold lastAsked. cbn [fold_left]. destruct (lookup st_id t ts) as [[? ?]|]; reflexivity.
    - cbn [irun fold_left afInitAESChannelDataTo fst snd]. destruct (IH (update st_id t' (fun k => TrackSetup (st_id k) b) ts)) as (ts' & R & L). exists ts'. split; [exact R|]. rewrite L, lookup_update by reflexivity.
      unfold lastAsked. cbn [fold_left fst snd]. rewrite (Z.eqb_sym t t'). destruct (Z.eqb_spec t' t) as [->|N]; [|reflexivity]. destruct (lookup st_id t ts) as [[? ?]|]; reflexivity. }
  destruct K as (ts' & R & L). exists ts'. split; [exact R|]. unfold afGetAESChannelData, openWriteAES. cbn [ah_tracks]. rewrite (lookup_map st_id) by reflexivity. rewrite L.
  destruct (lookup st_id t ts) as [k|]; [|reflexivity]. cbn [option_map ta_has ta_data st_aes]. destruct (lastAsked t cs (st_aes k)); reflexivity.
Qed.
Print Assumptions C80_new_file.

(** ** AIFF and AIFF-C *)
Definition withData (x : aextra) (d : option (list Z)) : aextra := AExtra (ax_marks x) (ax_inst x) d (ax_misc x).
Lemma init_call t b : afInitAESChannelDataTo (Some [TrackSetup t false]) t b = Some [TrackSetup t b].
Proof. cbn. rewrite Z.eqb_refl. reflexivity. Qed.

(** What the chunk is written from, after any calls on a new file of one track. *)
Lemma to_write b cs : aesToWrite (arun (openWriteAES [TrackSetup AF_DEFAULT_TRACK b]) cs) = if b then Some (lastSet AF_DEFAULT_TRACK cs nothing) else None.
Proof.
  assert (K : forall d, aesToWrite (arun (AESHandle true [TrackAES AF_DEFAULT_TRACK b d]) cs) = if b then Some (lastSet AF_DEFAULT_TRACK cs d) else None); [|apply K].
  induction cs as [|c cs IH]; intros d; [destruct b; reflexivity|]. cbn [arun fold_left]. fold (arun (astep (AESHandle true [TrackAES AF_DEFAULT_TRACK b d]) c) cs).
  assert (S : astep (AESHandle true [TrackAES AF_DEFAULT_TRACK b d]) c = AESHandle true [TrackAES AF_DEFAULT_TRACK b (if b then lastSet AF_DEFAULT_TRACK [c] d else d)]).
  { destruct c as [t|t u]; [destruct b; reflexivity|]. cbn [astep afSetAESChannelData lookup ah_tracks ah_writing negb ta_id]. unfold lastSet. cbn [fold_left]. rewrite (Z.eqb_sym t). destruct (AF_DEFAULT_TRACK =? t) eqn:E; [|destruct b; reflexivity].
    cbn [ta_has]. destruct b; [|reflexivity]. cbn [update ta_id ta_has]. rewrite E. reflexivity. }
  rewrite S, IH. destruct b; reflexivity.
Qed.
Lemma lastSet_len t cs d : zlen d = 24 -> Forall (fun c => match c with SetAES _ u => zlen u = 24 | GetAES _ => True end) cs -> zlen (lastSet t cs d) = 24.
Proof.
  intros Hd F. revert d Hd. induction F as [|c cs Hc F IH]; intros d Hd; [exact Hd|]. unfold lastSet. cbn [fold_left]. apply IH. destruct c as [t'|t' u]; [exact Hd|]. destruct (t' =? t); assumption.
Qed.

(** PCM written to an AIFF or AIFF-C file whose setup asked for AES data (or did not), with any calls that store AES data before the header is
    last updated: reopened, the file has AES data if it was asked for, the bytes last stored; the audio frames are those written. *)
Theorem C80_aiff_roundtrip_partial :
  forall (B : Build) host aifc s m e fm sgn n, let rate := S754_finite s m e in validD rate = true -> aiffPCM host rate aifc fm sgn n ->
  forall (asked : bool) (cs : list acall), Forall (fun c => match c with SetAES _ u => zlen u = 24 | GetAES _ => True end) cs ->
  forall y0 (ys : wtrack -> aextra), validExtra y0 -> (forall t, validExtra (ys t) /\ sameLayout y0 (ys t)) ->
  forall (V W : Type) (conv : V -> list Z) (back : list Z -> W) junk cap (ops : list wop), exists setup, 
    afInitAESChannelDataTo (Some [TrackSetup AF_DEFAULT_TRACK false]) AF_DEFAULT_TRACK asked = Some setup /\
    let opened := openWriteAES setup in let closing := arun opened cs in
    let x0 := withData y0 (aesToWrite opened) in let xs := fun t => withData (ys t) (aesToWrite closing) in
    let ch := f_chan fm in let bpf := Z.of_nat n * ch in let first := aiffFirst aifc fm x0 in let total := zlen (written ops) in
    (zlen junk = ch -> spaced false (ops ++ [Sync]) -> Forall (fun v => frameOf ch (fits sgn n) (conv v)) (written ops) -> first + bpf * total < 2 ^ 31 ->
     exists st, wrun (pcmW BigEndian n ch) conv junk true (fun f t => aiffUpdate aifc fm (xs t) f t) (openWrite (pcmW BigEndian n ch) (aiffInit aifc fm x0) first cap tt) (ops ++ [Sync]) = Ok st /\
       readsAs B (pcmR BigEndian sgn n ch) back (fbytes (ws_file st)) first total (map (fun v => back (conv v)) (written ops)) /\
       forall fuel, (6 + length (ax_misc (ys (ws_track st))) <= fuel)%nat -> exists parsed f',
         aiffRead aifc host fuel (mkFile (fbytes (ws_file st)) 0) = Ok (Some (parsed, f')) /\
         afGetAESChannelData (Some (openReadAES (as_aes parsed))) AF_DEFAULT_TRACK =
           (if asked then (1, Some (lastSet AF_DEFAULT_TRACK cs nothing)) else (0, Some nothing))).
Proof.
  intros B host aifc s m e fm sgn n rate Hr Hp asked cs F y0 ys V0 Vx V W conv back junk cap ops. eexists. split; [apply init_call|]. cbv zeta. intros Hj Hs Hf Hl.
  pose proof (to_write asked []) as T0. cbn [arun fold_left] in T0. pose proof (to_write asked cs) as T1. rewrite T0 in *. rewrite T1.
  assert (L0 : forall d, (if asked then Some (lastSet AF_DEFAULT_TRACK [] nothing) else None) = Some d -> zlen d = 24) by (destruct asked; intros d [= <-]; reflexivity).
  assert (L1 : forall d, (if asked then Some (lastSet AF_DEFAULT_TRACK cs nothing) else None) = Some d -> zlen d = 24) by (destruct asked; intros d [= <-]; apply lastSet_len; [reflexivity|exact F]).
  assert (VE : forall y d, validExtra y -> (forall u, d = Some u -> zlen u = 24) -> validExtra (withData y d)) by (intros y d (A1 & A2 & A3 & A4 & A5) D; unfold validExtra, withData; cbn; auto).
  destruct (C36_aiff_pcm_roundtrip_partial B host aifc s m e fm sgn n Hr Hp (withData y0 (if asked then Some (lastSet AF_DEFAULT_TRACK [] nothing) else None))
    (fun t => withData (ys t) (if asked then Some (lastSet AF_DEFAULT_TRACK cs nothing) else None))) with (conv := conv) (back := back) (junk := junk) (cap := cap) (ops := ops) as (st & R & P & Q); auto.
  { intros t. destruct (Vx t) as [V1 (S1 & S2 & S3)]. split; [apply VE; auto|]. unfold sameLayout, withData. cbn [ax_marks ax_aes ax_misc]. split; [exact S1|]. split; [|exact S3].
    destruct asked; [|exact I]. rewrite (L0 _ eq_refl), (L1 _ eq_refl). reflexivity. }
  exists st. split; [exact R|]. split; [exact Q|]. intros fuel Hfu. destruct (P fuel Hfu) as (f' & O). do 2 eexists. split; [exact O|]. destruct asked; reflexivity.
Qed.
Print Assumptions C80_aiff_roundtrip_partial.

(** ** Examples *)
(** Two tracks; AES data is asked for in the second only, stored into it twice, into the first (refused), into one that does not exist. *)
Example C80_example :
  let u := zrepeat 7 24 in let w := zrepeat 9 24 in
  exists ts, irun (Some [TrackSetup 1 true; TrackSetup 2 false]) [(2, true); (1, true); (1, false); (5, true)] = Some ts /\
    map (fun t => afGetAESChannelData (Some (arun (openWriteAES ts) [SetAES 2 u; SetAES 1 u; SetAES 3 u; GetAES 2; SetAES 2 w])) t) [1; 2; 3] = [(0, Some nothing); (1, Some w); (-1, None)].
Proof. eexists. split; [reflexivity|vm_compute; reflexivity]. Qed.
(** The conditions of the round trip: those of [C36_example], and this history. *)
Example C80_roundtrip_example :
  validD ex44100 = true /\ aiffPCM LittleEndian ex44100 true (mkFmt ex44100 TwosComp 12 2 BigEndian CNone 1 4) true 2 /\
  (let cs := [SetAES AF_DEFAULT_TRACK (zrepeat 7 24); GetAES 3; SetAES AF_DEFAULT_TRACK (zrepeat 9 24)] in
   Forall (fun c => match c with SetAES _ u => zlen u = 24 | GetAES _ => True end) cs /\ lastSet AF_DEFAULT_TRACK cs nothing = zrepeat 9 24) /\
  validExtra (exExtra 0 [0; 0; 0]) /\ validExtra (exExtra 5 [88; 89; 90]) /\ sameLayout (exExtra 0 [0; 0; 0]) (exExtra 5 [88; 89; 90]).
Proof.
  destruct C36_example as (E1 & E2 & E3 & E4 & E5 & _). split; [exact E1|]. split; [exact E2|]. split; [split; [repeat constructor|reflexivity]|]. auto.
Qed.
