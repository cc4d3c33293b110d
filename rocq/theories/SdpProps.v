(** C34: SDP text.  What is written is read back, by this library's own parser. *)
From Coq Require Import String Ascii Permutation.
From Verif Require Import Base BaseFacts PayModel PaySpec PayProps PrioModel TextModel TextFacts SdpModel SdpSpec SdpProofs1 SdpProofs2 SdpProofs3 SdpProofs4 SdpProofs5 SdpProofs6 SdpProofs7 SdpProofs8 SdpProofs9.

(** A description built from writable values is written, the text parses to its end, and every part is read as written. *)
Theorem C34_round_trip : forall e d, env_ok e -> sdp_ok d ->
  exists s d', show_sdp e d = Ok s /\ sdp_parse e s = Some d' /\ p_sdp e s = POk true d' [] /\ sdp_reads e d d'.
Proof.
  intros e d He Hd. destruct (sdp_read e d He Hd) as (s & d' & A & B & C). exists s, d'. split; [exact A|]. split; [|split; [exact B|exact C]].
  unfold sdp_parse. rewrite B. reflexivity.
Qed.
Print Assumptions C34_round_trip.

(** The codecs of every media description are the same on both sides: feedback, parameters and repair included. *)
Theorem C34_params : forall e d, env_ok e -> sdp_ok d ->
  exists s d', show_sdp e d = Ok s /\ sdp_parse e s = Some d' /\
    map line_params_of (sd_lines d') = map line_params_of (sd_lines d).
Proof.
  intros e d He Hd. destruct (C34_round_trip e d He Hd) as (s & d' & A & B & _ & C). exists s, d'. split; [exact A|]. split; [exact B|].
  destruct Hd as [_ _ _ L]. destruct C as [_ _ _ R]. induction R as [|m m' l l' Hm R IH]; [reflexivity|].
  apply Forall_cons_iff in L. destruct L as [L1 L2]. cbn [map]. rewrite (IH L2), (params_reads e m m' L1 Hm). reflexivity.
Qed.
Print Assumptions C34_params.

(** A candidate: both parsers (the one of SDP and the one of trickled candidates) read the text as the same candidate. *)
Theorem C34_candidate : forall e c, env_ok e -> cand_ok c ->
  exists s c', show_cand e c = Ok s /\ cand_parse e s = Some c' /\ seen_as e c c' /\
    forall r, p_cand_attr e (T "a=" ++ s ++ crlf ++ r) = POk true c' r.
Proof.
  intros e c He Hc. destruct (foundation_ok e c He Hc) as (f & Ef & Hf). destruct (co_prio c Hc) as (p & Ep & Hp).
  destruct (cand_full e c He Hc) as (s & c' & A & _ & B & C). pose proof (show_cand_is e c f p Ef Ep) as D.
  assert (X : t_cand e c f p = s) by congruence. exists s, (read_as c f p). split; [exact A|].
  split; [rewrite <- X; apply cand_parse_ok; assumption|].
  assert (Y : c' = read_as c f p).
  { pose proof (cand_read e c f p [] He Hc Hf Hp) as P. specialize (C []). rewrite <- X in C. unfold p_cand_attr, pbind in C.
    change (97 :: 61 :: t_cand e c f p ++ crlf ++ []) with (T "a=" ++ t_cand e c f p ++ crlf ++ []) in C. rewrite lit_ok in C by discriminate. rewrite P in C.
    cbn in C. congruence. }
  subst c'. split; [exact B|exact C].
Qed.
Print Assumptions C34_candidate.

(** Whatever text was accepted: every media description has exactly one mid (of at most 16 letters, digits and
    underscores), at most one setup, for RTP exactly one direction and a payload type, each payload type described once
    (a static one may be left out), and all payload types in the attributes are seven bits. *)
Theorem C34_parsed : forall e s d, sdp_parse e s = Some d ->
  Forall (fun m => consistent m /\ Forall parsed_ok (ml_attrs m)) (sd_lines d).
Proof. exact sdp_parsed. Qed.
Print Assumptions C34_parsed.

(** The media descriptions of an offer list the configured codecs: they can be written, and the codecs read from the text
    are the configured ones. *)
Theorem C34_offer : forall e d, env_ok e -> u64 (sd_id d) -> bw_ok (sd_bw d) -> Forall sattr_ok (sd_attrs d) ->
  Forall (fun m => mline_ok m \/ exists ps, proper ps /\ offered m ps) (sd_lines d) ->
  exists s d', show_sdp e d = Ok s /\ sdp_parse e s = Some d' /\
    Forall2 (fun m m' => forall ps, proper ps -> offered m ps ->
      ml_pts m' = line_pts ps /\
      map (fun p => (p_pt p, p_resend p, p_spec p)) (line_params_of m') = map (fun p => (p_pt p, p_resend p, p_spec p)) ps)
      (sd_lines d) (sd_lines d').
Proof.
  intros e d He Hid Hbw Hat Hl.
  assert (L : Forall mline_ok (sd_lines d)).
  { apply Forall_forall. intros m I. rewrite Forall_forall in Hl. destruct (Hl m I) as [O|(ps & (N & _) & (t & dis & bw & pre & post & -> & H))]; [exact O|].
    apply offer_ok; try apply H. exact N. }
  assert (D : sdp_ok d) by (constructor; assumption).
  destruct (C34_round_trip e d He D) as (s & d' & A & B & _ & C). exists s, d'. split; [exact A|]. split; [exact B|].
  destruct C as [_ _ _ R]. clear A B D Hl. induction R as [|m m' l l' Hm R IH]; constructor.
  - apply Forall_cons_iff in L. destruct L as [L1 _]. intros ps P (t & dis & bw & pre & post & E & H).
    rewrite (params_reads e m m' L1 Hm). split; [rewrite (mr_pts e m m' Hm), E; reflexivity|].
    rewrite E. unfold line_params_of. cbn [ml_pts ml_attrs]. rewrite offer_seen by apply H. apply C35_line_roundtrip. exact P.
  - apply IH. apply Forall_cons_iff in L. apply L.
Qed.
Print Assumptions C34_offer.
(** Every codec configuration the API can enable is one that can be written. *)
Theorem C34_configs_writable : forall cfg, incl cfg universe -> Forall wr_ok cfg.
Proof.
  intros cfg I. apply Forall_forall. intros p Hp. apply I in Hp. revert p Hp. clear. apply Forall_forall.
  unfold universe, en_entries. cbn [flat_map app].
  repeat (apply Forall_cons; [constructor; cbn; unfold pt_ok, u8, u32, ptl_ok; cbn; try lia; try discriminate; try exact I; tauto|]). apply Forall_nil.
Qed.
Print Assumptions C34_configs_writable.
Theorem C34_enabled_offer : forall e l cfg t dis bw pre post id sbw sat, env_ok e -> enables [] l = Ok cfg -> cfg <> [] ->
  mtype_ok t -> t <> MTApp -> bw_ok bw -> Forall mattr_ok (pre ++ post) -> Forall codec_free (pre ++ post) ->
  occurs a_mid (pre ++ post) 1 -> occurs a_dir (pre ++ post) 1 -> (exists n, occurs a_setup (pre ++ post) n /\ (n <= 1)%nat) ->
  u64 id -> bw_ok sbw -> Forall sattr_ok sat ->
  exists s d' m', show_sdp e (mkS id sbw sat [mkM t dis Srtp (line_pts cfg) bw (pre ++ map written (flat_map as_media_attrs cfg) ++ post)]) = Ok s /\
    sdp_parse e s = Some d' /\ sd_lines d' = [m'] /\ ml_pts m' = line_pts cfg /\
    map (fun p => (p_pt p, p_resend p, p_spec p)) (line_params_of m') = map (fun p => (p_pt p, p_resend p, p_spec p)) cfg.
Proof.
  intros e l cfg t dis bw pre post id sbw sat He El Ne Ht Na Hb Ho Hf Hm Hd Hs Hid Hsb Hsa.
  destruct (enables_inv l [] (NoDup_nil _)) as (cfg' & E & N & I); [intros ? []|]. assert (cfg' = cfg) as -> by congruence.
  destruct (sub_proper cfg N I) as (P & _ & _).
  set (m := mkM t dis Srtp (line_pts cfg) bw (pre ++ map written (flat_map as_media_attrs cfg) ++ post)).
  assert (O : offered m cfg).
  { exists t, dis, bw, pre, post. split; [reflexivity|]. split; [exact Ht|]. split; [exact Na|]. split; [exact Hb|]. split; [exact Ne|].
    split; [apply C34_configs_writable; exact I|]. split; [exact Ho|]. split; [exact Hf|]. split; [exact Hm|]. split; [exact Hd|exact Hs]. }
  destruct (C34_offer e (mkS id sbw sat [m]) He Hid Hsb Hsa) as (s & d' & A & B & C).
  { constructor; [right; exists cfg; split; assumption|constructor]. }
  inversion C as [|m0 m' l0 l' Hm' R EA EB]. subst. inversion R as [EC ED|]. subst. exists s, d', m'. split; [exact A|]. split; [exact B|]. split; [congruence|].
  apply Hm'; assumption.
Qed.
Print Assumptions C34_enabled_offer.

(** ** The hypotheses are met: an environment, a whole description, a candidate *)
Definition demo_show (i : ip) : str :=
  match i with V4 a => 52 :: (if a <? 0 then 45 else 43) :: dec (Z.abs a) | V6 a => 54 :: (if a <? 0 then 45 else 43) :: dec (Z.abs a) end.
Definition demo_read (s : str) : option ip :=
  match s with
  | f :: g :: r => match num_val 10 r 0 with
                   | Some v => let v := if g =? 45 then - v else v in if f =? 52 then Some (V4 v) else Some (V6 v)
                   | None => None end
  | _ => None
  end.
Definition demo : env := mkEnv demo_show demo_read (fun _ => false) (fun _ _ _ _ => 3735928559) (fun l => l).
Lemma demo_val : forall a, num_val 10 (dec (Z.abs a)) 0 = Some (Z.abs a).
Proof.
  intro a. pose proof (read_dec (Z.abs a) (Z.abs a) ltac:(lia)) as R. pose proof (dec_digits (Z.abs a) ltac:(lia)) as [N D].
  unfold read_num in R. destruct (dec (Z.abs a)) as [|c r]; [congruence|]. apply Forall_cons_iff in D. destruct D as [Dc _].
  assert (M : c = 48 \/ c = 49 \/ c = 50 \/ c = 51 \/ c = 52 \/ c = 53 \/ c = 54 \/ c = 55 \/ c = 56 \/ c = 57) by lia.
  repeat match type of M with _ \/ _ => destruct M as [M|M] end; subst c; cbv beta iota zeta in R;
    (destruct (num_val 10 (_ :: r) 0) as [v|]; [destruct (v <=? Z.abs a); [congruence|discriminate]|discriminate]).
Qed.
Lemma demo_env : env_ok demo.
Proof.
  constructor.
  - intros [a|a]; cbn [demo ip_read ip_show demo_show demo_read]; rewrite demo_val; cbv zeta; destruct (Z.ltb_spec a 0); change (45 =? 45) with true; change (43 =? 45) with false; change (52 =? 52) with true; change (54 =? 52) with false; cbv iota; do 2 f_equal; lia.
  - assert (S : forall f a, f = 52 \/ f = 54 -> f :: (if a <? 0 then 45 else 43) :: dec (Z.abs a) <> [] /\ Forall (fun c => is_space c = false) (f :: (if a <? 0 then 45 else 43) :: dec (Z.abs a))).
    { intros f a F. split; [discriminate|]. constructor; [destruct F as [-> | ->]; reflexivity|]. constructor; [destruct (a <? 0); reflexivity|].
      destruct (dec_digits (Z.abs a) ltac:(lia)) as [_ D]. eapply Forall_impl; [|exact D]. intros c Hc. cbv beta in Hc.
      assert (M : c = 48 \/ c = 49 \/ c = 50 \/ c = 51 \/ c = 52 \/ c = 53 \/ c = 54 \/ c = 55 \/ c = 56 \/ c = 57) by lia.
      repeat match type of M with _ \/ _ => destruct M as [M|M] end; subst c; reflexivity. }
    intros [a|a]; apply S; tauto.
  - intros. cbn. lia.
  - intro l. apply Permutation_refl.
Qed.
Definition demo_host : candidate :=
  mkC None 1 Udp None (V4 3232235786) 51472 None Host None None None (V4 3232235786, 51472) (Some 65534) false.
Definition demo_srflx : candidate :=
  mkC None 1 Udp None (V4 2345678) 61472 (Some (V4 3232235786, 51472)) ServerReflexive (Some (V4 3232235786, 51472)) None (Some (T "abcd")) (V4 3232235786, 51472) (Some 32766) false.
Example demo_cands : cand_ok demo_host /\ cand_ok demo_srflx /\
  show_cand demo demo_srflx = Ok (T "candidate:fffe7f64deadbeef 1 udp 1686109951 4+2345678 61472 typ srflx raddr 4+3232235786 rport 51472 ufrag abcd").
Proof.
  split; [|split; [|vm_compute; reflexivity]].
  - constructor; try (intros; discriminate).
    + unfold u16; cbn; lia.
    + eexists. split; [vm_compute; reflexivity|unfold u32; lia].
    + unfold u16; cbn; lia.
  - constructor; try (intros; discriminate).
    + unfold u16; cbn; lia.
    + eexists. split; [vm_compute; reflexivity|unfold u32; lia].
    + unfold u16; cbn; lia.
    + intros i p E. injection E as <- <-. unfold u16; lia.
    + intros u E. injection E as <-. split; [discriminate|]. cbn. repeat constructor.
Qed.
Definition crl (l : list string) : str := flat_map (fun s => T s ++ crlf) l.
Definition demo_attrs : list sattr :=
  [SGroup (T "BUNDLE") [T "aud"; T "dat"]; SMsidSemantic (T "WMS") [T "*"]; SAllowMixed; SIceUfrag (T "Uf12"); SIcePwd (T "pass word");
   SFingerprint (mkFg (T "sha-256") [171; 0; 18]); SSetup SActPass; SCandidate demo_srflx; SEndOfCandidates; SUnused (T "foo:bar")].
Definition demo_cfg : list pp := flat_map en_entries [EnOpus; EnVp8; EnH265].
Definition demo_pre : list mattr :=
  [MCandidate demo_host; MIceUfrag (T "Uf12"); MIcePwd (T "pw"); MFingerprint (mkFg (T "sha-256") [171; 0; 18]); MSetup SActPass; MMid (T "aud");
   MExtMap 1 (ExtKnown 2); MExtMap 2 (ExtUnknown (T "urn:x")); MSendRecv; MRtcpMux; MRtcpRsize; MMsid (T "s") (T "t u")].
Definition demo_post : list mattr :=
  [MRid (T "lo") true true [] []; MRid (T "hi") true true [] [(T "max-width", T "1280")];
   MSimulcast (mkSim [mkLayer (T "hi") true None; mkLayer (T "lo") false None] [] false);
   MSsrcGroup (T "FID") [12345; 67890]; MSsrc 12345 (T "cname") (T "x y")].
Definition demo_line : mline := mkM MTVideo false Srtp (line_pts demo_cfg) (Some (mkBw (T "AS") (T "500"))) (demo_pre ++ map written (flat_map as_media_attrs demo_cfg) ++ demo_post).
Definition demo_dat : mline := mkM MTApp false Sctp [] None [MMid (T "dat"); MSctpPort 5000; MMaxMessageSize 262144].
Definition demo_sdp : sdp := mkS 7234567890123456789 None demo_attrs [demo_line; demo_dat].
Ltac word_tac := split; [discriminate|cbn; repeat (constructor; [repeat split; lia|]); constructor].
Lemma demo_offered : offered demo_line demo_cfg /\ proper demo_cfg.
Proof.
  split.
  - exists MTVideo, false, (Some (mkBw (T "AS") (T "500"))), demo_pre, demo_post. split; [reflexivity|]. split; [exact I|]. split; [discriminate|].
    split. { intros b E. injection E as <-. cbn. repeat split; try discriminate; repeat constructor; lia. }
    split; [discriminate|]. split. { apply C34_configs_writable. unfold demo_cfg, universe. intros p Hp. apply in_flat_map in Hp. destruct Hp as (x & Hx & Hp). apply in_flat_map. exists x. split; [|exact Hp]. cbn in *. tauto. }
    split.
    { unfold demo_pre, demo_post. cbn [app].
      constructor; [apply demo_cands|]. constructor; [word_tac|]. constructor; [word_tac|].
      constructor; [split; [word_tac|split; [discriminate|cbn; unfold u8; repeat constructor; lia]]|]. constructor; [exact I|].
      constructor; [split; [discriminate|split; [cbn; lia|cbn; unfold plain; repeat constructor; lia]]|].
      constructor; [split; [unfold u8; lia|cbn; lia]|].
      constructor; [split; [unfold u8; lia|split; [word_tac|cbn; intro X; repeat destruct X as [X|X]; try discriminate; destruct X]]|].
      constructor; [exact I|]. constructor; [exact I|]. constructor; [exact I|]. constructor; [split; [word_tac|word_tac]|].
      constructor. { split; [split; [discriminate|cbn; unfold plain; repeat constructor; lia]|]. split; [reflexivity|]. split; [reflexivity|]. split; [constructor|discriminate]. }
      constructor. { split; [split; [discriminate|cbn; unfold plain; repeat constructor; lia]|]. split; [reflexivity|]. split; [reflexivity|].
        split; [constructor; [|constructor]; split; [split; [word_tac|split; [cbn; repeat (constructor; [lia|]); constructor|intros c t E; injection E as <- <-; reflexivity]]|split; [word_tac|cbn; repeat (constructor; [lia|]); constructor]]|].
        intros k v r E. injection E as <- <- <-. intros (t & E). discriminate. }
      constructor. { split; [left; discriminate|]. split; [|constructor]. repeat constructor; cbn; try discriminate; unfold plain; lia. }
      constructor; [split; [word_tac|split; [discriminate|cbn; unfold u32; repeat constructor; lia]]|].
      constructor; [|constructor]. split; [unfold u32; lia|]. split; [discriminate|]. split; [cbn; repeat (constructor; [repeat split; lia|]); constructor|word_tac]. }
    split; [repeat constructor|].
    split; [apply (proj2 (occurs_count _ is_mid _ _ _ mid_iff)); reflexivity|]. split; [apply (proj2 (occurs_count _ is_dir _ _ _ dir_iff)); reflexivity|].
    exists 1%nat. split; [apply (proj2 (occurs_count _ is_setup _ _ _ setup_iff)); reflexivity|lia].
  - apply sub_proper; [apply (NoDup_map_inv p_pt); apply nodupb_ok; vm_compute; reflexivity|].
    unfold demo_cfg, universe. intros p Hp. apply in_flat_map in Hp. destruct Hp as (x & Hx & Hp). apply in_flat_map. exists x. split; [|exact Hp]. cbn in *. tauto.
Qed.
Lemma demo_line_ok : mline_ok demo_line.
Proof. destruct demo_offered as [(t & dis & bw & pre & post & -> & H) (N & _)]. apply offer_ok; try apply H. exact N. Qed.
Example demo_ok : sdp_ok demo_sdp.
Proof.
  constructor.
  - unfold u64; cbn; lia.
  - intros b E. discriminate.
  - unfold demo_sdp, demo_attrs. cbn [sd_attrs].
    constructor; [split; [word_tac|split; [discriminate|]]; constructor; [|constructor; [|constructor]]; (split; [discriminate|split; [cbn; lia|cbn; unfold plain; repeat constructor; lia]])|].
    constructor; [split; [word_tac|split; [discriminate|constructor; [word_tac|constructor]]]|].
    constructor; [exact I|]. constructor; [word_tac|]. constructor; [word_tac|].
    constructor; [split; [word_tac|split; [discriminate|cbn; unfold u8; repeat constructor; lia]]|]. constructor; [exact I|]. constructor; [apply demo_cands|]. constructor; [exact I|].
    constructor; [|constructor]. split; [word_tac|]. split.
    + intros n Hn (t & E). cbn in Hn. repeat destruct Hn as [<-|Hn]; try discriminate. destruct Hn.
    + cbn. intro X. repeat destruct X as [X|X]; try discriminate. destruct X.
  - constructor; [exact demo_line_ok|]. constructor; [|constructor].
    constructor; cbn [demo_dat ml_typ ml_pts ml_bw ml_attrs ml_proto].
    + exact I.
    + constructor.
    + reflexivity.
    + intros b E; discriminate.
    + constructor; [split; [discriminate|split; [cbn; lia|cbn; unfold plain; repeat constructor; lia]]|]. constructor; [change (u16 5000); unfold u16; lia|]. constructor; [change (u64 262144); unfold u64; lia|constructor].
    + constructor; cbn [ml_attrs ml_proto ml_pts].
      * apply (proj2 (occurs_count _ is_mid _ _ _ mid_iff)); reflexivity.
      * exists 0%nat. split; [apply (proj2 (occurs_count _ is_setup _ _ _ setup_iff)); reflexivity|lia].
      * discriminate.
      * discriminate.
      * intros pt [].
Qed.
(** the text of that offer *)
Example demo_text : show_sdp demo demo_sdp = Ok (crl [
  "v=0";
  "o=str0m-0.23.1 7234567890123456789 2 IN IP4 0.0.0.0";
  "s=-";
  "t=0 0";
  "a=group:BUNDLE aud dat";
  "a=msid-semantic: WMS *";
  "a=extmap-allow-mixed";
  "a=ice-ufrag:Uf12";
  "a=ice-pwd:pass word";
  "a=fingerprint:sha-256 AB:00:12";
  "a=setup:actpass";
  "a=candidate:fffe7f64deadbeef 1 udp 1686109951 4+2345678 61472 typ srflx raddr 4+3232235786 rport 51472 ufrag abcd";
  "a=end-of-candidates";
  "a=foo:bar";
  "m=video 9 UDP/TLS/RTP/SAVPF 111 96 97 102 103";
  "c=IN IP4 0.0.0.0";
  "b=AS:500";
  "a=candidate:fffeff7edeadbeef 1 udp 2130706175 4+3232235786 51472 typ host";
  "a=ice-ufrag:Uf12";
  "a=ice-pwd:pw";
  "a=fingerprint:sha-256 AB:00:12";
  "a=setup:actpass";
  "a=mid:aud";
  "a=extmap:1 urn:ietf:params:rtp-hdrext:ssrc-audio-level";
  "a=extmap:2 urn:x";
  "a=sendrecv";
  "a=rtcp-mux";
  "a=rtcp-rsize";
  "a=msid:s t u";
  "a=rtpmap:111 opus/48000/2";
  "a=rtcp-fb:111 transport-cc";
  "a=fmtp:111 minptime=10;useinbandfec=1";
  "a=rtpmap:96 VP8/90000";
  "a=rtcp-fb:96 transport-cc";
  "a=rtcp-fb:96 goog-remb";
  "a=rtcp-fb:96 ccm fir";
  "a=rtcp-fb:96 nack";
  "a=rtcp-fb:96 nack pli";
  "a=rtpmap:97 rtx/90000";
  "a=fmtp:97 apt=96";
  "a=rtpmap:102 H265/90000";
  "a=rtcp-fb:102 transport-cc";
  "a=rtcp-fb:102 goog-remb";
  "a=rtcp-fb:102 ccm fir";
  "a=rtcp-fb:102 nack";
  "a=rtcp-fb:102 nack pli";
  "a=fmtp:102 profile-id=1;tier-flag=0;level-id=180";
  "a=rtpmap:103 rtx/90000";
  "a=fmtp:103 apt=102";
  "a=rid:lo send";
  "a=rid:hi send max-width=1280";
  "a=simulcast:send hi;~lo";
  "a=ssrc-group:FID 12345 67890";
  "a=ssrc:12345 cname:x y";
  "m=application 9 UDP/DTLS/SCTP webrtc-datachannel";
  "c=IN IP4 0.0.0.0";
  "a=mid:dat";
  "a=sctp-port:5000";
  "a=max-message-size:262144"]%string).
Proof. vm_compute. reflexivity. Qed.

(** ** What does not hold: texts other implementations write, and descriptions that are not read as written. *)
Definition head : list string := ["v=0"; "o=- 1 2 IN IP4 0.0.0.0"; "s=-"; "t=0 0"]%string.
Definition opus_line (fm : list string) : str :=
  crl (head ++ ["m=audio 9 UDP/TLS/RTP/SAVPF 111"; "a=mid:a"; "a=rtpmap:111 opus/48000/2"]%string ++ fm ++ ["a=sendrecv"]%string).
Definition opus_ext (fm : list string) : str :=
  crl (head ++ ["m=audio 9 UDP/TLS/RTP/SAVPF 111"; "a=mid:a"; "a=rtpmap:111 opus/48000/2"]%string ++ fm ++ ["a=extmap:1 urn:x"; "a=sendrecv"]%string).
Definition attrs_of (o : option sdp) : option (list (list mattr)) := option_map (fun d => map ml_attrs (sd_lines d)) o.
(** A semicolon at the end of the format parameters (which other implementations write): the parameters are lost, or, if the
    next line has no space in its value, that line is swallowed: with the direction next the offer is rejected. *)
Theorem C34_trailing_semicolon_refuted : forall e,
  attrs_of (sdp_parse e (opus_ext ["a=fmtp:111 minptime=10"%string])) =
    Some [[MMid (T "a"); MRtpMap 111 Opus 48000 (Some 2); MFmtp 111 [MinPTime 10]; MExtMap 1 (ExtUnknown (T "urn:x")); MSendRecv]] /\
  attrs_of (sdp_parse e (opus_ext ["a=fmtp:111 minptime=10;"%string])) =
    Some [[MMid (T "a"); MRtpMap 111 Opus 48000 (Some 2); MFmtp 111 [FUnknown]; MExtMap 1 (ExtUnknown (T "urn:x")); MSendRecv]] /\
  sdp_parse e (opus_line ["a=fmtp:111 minptime=10;"%string]) = None.
Proof. intro e. repeat match goal with |- _ /\ _ => split end; vm_compute; reflexivity. Qed.
Print Assumptions C34_trailing_semicolon_refuted.
(** An accepted description, written again, need not be accepted: parameters that are not key and value. *)
Theorem C34_rewrite_refuted : forall e, exists d s,
  sdp_parse e (opus_line ["a=fmtp:111 0-15"%string]) = Some d /\ show_sdp e d = Ok s /\ sdp_parse e s = None.
Proof.
  intro e. exists (mkS 1 None [] [mkM MTAudio false Srtp [111] None [MMid (T "a"); MRtpMap 111 Opus 48000 (Some 2); MFmtp 111 [FUnknown]; MSendRecv]]).
  exists (crl ["v=0"; "o=str0m-0.23.1 1 2 IN IP4 0.0.0.0"; "s=-"; "t=0 0"; "m=audio 9 UDP/TLS/RTP/SAVPF 111"; "c=IN IP4 0.0.0.0"; "a=mid:a";
    "a=rtpmap:111 opus/48000/2"; "a=fmtp:111 "; "a=sendrecv"]%string).
  repeat match goal with |- _ /\ _ => split end; vm_compute; reflexivity.
Qed.
Print Assumptions C34_rewrite_refuted.
(** A restriction identifier with payload types is written, but not read (the first number is taken up to the next space, commas included). *)
Theorem C34_rid_pt_refuted : forall e,
  show_mattr e (MRid (T "1") true true [99; 100] []) = Ok (T "a=rid:1 send pt=99,100" ++ crlf) /\
  attrs_of (sdp_parse e (opus_line ["a=rid:1 send pt=99,100"%string])) =
    Some [[MMid (T "a"); MRtpMap 111 Opus 48000 (Some 2); MUnused (T "rid:1 send pt=99,100"); MSendRecv]].
Proof. intro e. split; vm_compute; reflexivity. Qed.
Print Assumptions C34_rid_pt_refuted.
(** A mid is changed: other characters become underscores, only 16 are kept; two different mids can become the same. *)
Theorem C34_mid_refuted : forall e,
  attrs_of (sdp_parse e (crl (head ++ ["m=application 9 UDP/DTLS/SCTP webrtc-datachannel"; "a=mid:x-1"; "m=application 9 UDP/DTLS/SCTP webrtc-datachannel"; "a=mid:x.1";
     "m=application 9 UDP/DTLS/SCTP webrtc-datachannel"; "a=mid:aaaaaaaaaaaaaaaa1"; "m=application 9 UDP/DTLS/SCTP webrtc-datachannel"; "a=mid:aaaaaaaaaaaaaaaa2"]%string))) =
    Some [[MMid (T "x_1")]; [MMid (T "x_1")]; [MMid (T "aaaaaaaaaaaaaaaa")]; [MMid (T "aaaaaaaaaaaaaaaa")]].
Proof. intro e. vm_compute. reflexivity. Qed.
Print Assumptions C34_mid_refuted.
(** What follows a line the grammar does not know is dropped without an error: here the second media description. *)
Theorem C34_junk_refuted : forall e,
  attrs_of (sdp_parse e (crl (head ++ ["m=application 9 UDP/DTLS/SCTP webrtc-datachannel"; "a=mid:x"; "y=junk"; "m=application 9 UDP/DTLS/SCTP webrtc-datachannel"; "a=mid:y"]%string))) =
    Some [[MMid (T "x")]].
Proof. intro e. vm_compute. reflexivity. Qed.
Print Assumptions C34_junk_refuted.
(** An ssrc attribute without a value takes the next line as part of its name. *)
Theorem C34_ssrc_refuted : forall e,
  attrs_of (sdp_parse e (opus_line ["a=ssrc:1 foo"; "a=extmap:1 urn:x"]%string)) =
    Some [[MMid (T "a"); MRtpMap 111 Opus 48000 (Some 2); MSsrc 1 (T "foo" ++ crlf ++ T "a=extmap") (T "1 urn:x"); MSendRecv]].
Proof. intro e. vm_compute. reflexivity. Qed.
Print Assumptions C34_ssrc_refuted.
(** Writing panics for a fingerprint without bytes and for a simulcast without layers. *)
Theorem C34_write_panic_refuted : forall e f m,
  show_sattr e (SFingerprint (mkFg f [])) = Panic /\ show_mattr e (MSimulcast (mkSim [] [] m)) = Panic.
Proof. intros e f m. split; reflexivity. Qed.
Print Assumptions C34_write_panic_refuted.
