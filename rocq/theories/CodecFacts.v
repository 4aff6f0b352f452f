(** Proofs about [Attributes] and [Packet] against [Spec]. *)
From Coq Require Import String List NArith ZArith Bool Strings.Byte Lia.
From Verif Require Import Prelude PreludeFacts Md5 Tag Code Avp Attributes Packet Spec.
Import ListNotations.
Local Open Scope N_scope.

(** ** codes *)
Lemma code_to_u8_number c : b2n (code_to_u8 c) = code_number c.
Proof. destruct c; reflexivity. Qed.
Lemma code_from_to c : code_from (code_to_u8 c) = c.
Proof. destruct c; reflexivity. Qed.
Lemma code_from_reported o : reported_code o (code_from o).
Proof.
  destruct o; try (left; reflexivity);
    (right; split; [reflexivity|intros []; vm_compute; discriminate]).
Qed.
Lemma reported_code_from o c : reported_code o c <-> code_from o = c.
Proof.
  split; [|intros <-; apply code_from_reported].
  intros [H|[-> H]].
  - rewrite <- code_to_u8_number in H. apply b2n_inj in H. subst. apply code_from_to.
  - destruct (code_from_reported o) as [H'|[H' _]]; [|exact H'].
    exfalso. exact (H _ H').
Qed.
Lemma code_number_inj c d : code_number c = code_number d -> c = d.
Proof. destruct c, d; simpl; intros H; congruence. Qed.

(** ** attribute decoding *)
Lemma attrs_wire_app a xs b ys : attrs_wire a xs -> attrs_wire b ys -> attrs_wire (a ++ b) (xs ++ ys).
Proof.
  intros H Hb. induction H; simpl; auto.
  rewrite <- app_assoc. constructor; auto.
Qed.

Lemma loop_step_ok fuel pre t l v rest acc :
  b2n l = 2 + len v ->
  attributes_decode_loop (S fuel) (pre ++ t :: l :: v ++ rest) (len pre) acc
  = attributes_decode_loop fuel ((pre ++ t :: l :: v) ++ rest) (len (pre ++ t :: l :: v)) (acc ++ [AVP t v]).
Proof.
  intros Hl. cbn [attributes_decode_loop].
  replace (negb (len pre <? len (pre ++ t :: l :: v ++ rest))) with false
    by (autorewrite with len; lia).
  rewrite !slice_from_app by reflexivity. cbn [bind].
  replace (len (t :: l :: v ++ rest) <? 2) with false by (autorewrite with len; lia).
  replace (index (pre ++ t :: l :: v ++ rest) (len pre + 1)) with (@Ok string byte l).
  2:{ symmetry. change (t :: l :: v ++ rest) with ([t] ++ l :: v ++ rest). rewrite app_assoc.
      apply index_app. autorewrite with len. lia. }
  cbn [bind]. pose proof (b2n_lt l).
  replace ((len (t :: l :: v ++ rest) <? b2n l) || negb ((2 <=? b2n l) && (b2n l <=? 255)))
    with false by (autorewrite with len; lia).
  rewrite index_app by reflexivity. cbn [bind].
  replace (if 2 <? b2n l then slice (pre ++ t :: l :: v ++ rest) (len pre + 2) (len pre + b2n l) else Ok [])
    with (@Ok string bytes v).
  2:{ destruct (2 <? b2n l) eqn:E.
      - symmetry. change (t :: l :: v ++ rest) with ([t; l] ++ v ++ rest). rewrite app_assoc.
        apply slice_app; autorewrite with len; lia.
      - assert (len v = 0) by lia. apply len_zero in H0. subst. reflexivity. }
  cbn [bind]. f_equal.
  - rewrite <- app_assoc. reflexivity.
  - autorewrite with len. lia.
Qed.

Lemma loop_ok suf avs : attrs_wire suf avs -> forall fuel pre acc,
  (length suf <= fuel)%nat ->
  attributes_decode_loop fuel (pre ++ suf) (len pre) acc = Ok (acc ++ avs).
Proof.
  induction 1 as [|t l v rest avs Hl H IH]; intros fuel pre acc Hf.
  - destruct fuel; cbn [attributes_decode_loop];
      replace (negb (len pre <? len (pre ++ []))) with true by (autorewrite with len; lia);
      rewrite app_nil_r; reflexivity.
  - destruct fuel as [|fuel]; [simpl in Hf; lia|].
    rewrite loop_step_ok by exact Hl. rewrite IH.
    + rewrite <- app_assoc. reflexivity.
    + simpl in Hf. rewrite app_length in Hf. lia.
Qed.

Lemma loop_err_here_short fuel pre t acc :
  attributes_decode_loop (S fuel) (pre ++ [t]) (len pre) acc = Err "short buffer"%string.
Proof.
  cbn [attributes_decode_loop].
  replace (negb (len pre <? len (pre ++ [t]))) with false by (autorewrite with len; lia).
  rewrite slice_from_app by reflexivity. cbn [bind]. reflexivity.
Qed.

Lemma loop_err_here_length fuel pre t l rest acc :
  b2n l < 2 \/ 2 + len rest < b2n l ->
  attributes_decode_loop (S fuel) (pre ++ t :: l :: rest) (len pre) acc
  = Err "invalid attribute length"%string.
Proof.
  intros H. cbn [attributes_decode_loop].
  replace (negb (len pre <? len (pre ++ t :: l :: rest))) with false by (autorewrite with len; lia).
  rewrite slice_from_app by reflexivity. cbn [bind].
  replace (len (t :: l :: rest) <? 2) with false by (autorewrite with len; lia).
  replace (index (pre ++ t :: l :: rest) (len pre + 1)) with (@Ok string byte l).
  2:{ symmetry. change (t :: l :: rest) with ([t] ++ l :: rest). rewrite app_assoc.
      apply index_app. autorewrite with len. lia. }
  cbn [bind].
  replace ((len (t :: l :: rest) <? b2n l) || negb ((2 <=? b2n l) && (b2n l <=? 255)))
    with true by (autorewrite with len; lia).
  reflexivity.
Qed.

Lemma loop_err suf0 avs : attrs_wire suf0 avs -> forall bad msg,
  (exists t, bad = [t] /\ msg = "short buffer"%string)
  \/ (exists t l rest, bad = t :: l :: rest /\ (b2n l < 2 \/ 2 + len rest < b2n l)
      /\ msg = "invalid attribute length"%string) ->
  forall fuel pre acc, (length (suf0 ++ bad) <= fuel)%nat ->
  attributes_decode_loop fuel (pre ++ suf0 ++ bad) (len pre) acc = Err msg.
Proof.
  induction 1 as [|t l v rest avs Hl H IH]; intros bad msg Hbad fuel pre acc Hf.
  - destruct Hbad as [(t & -> & ->)|(t & l & rest & -> & Hb & ->)];
      (destruct fuel as [|fuel]; [simpl in Hf; lia|]); simpl app.
    + apply loop_err_here_short.
    + apply loop_err_here_length. exact Hb.
  - destruct fuel as [|fuel]; [simpl in Hf; lia|].
    replace (pre ++ (t :: l :: v ++ rest) ++ bad) with (pre ++ t :: l :: v ++ rest ++ bad)
      by (simpl; rewrite <- app_assoc; reflexivity).
    rewrite loop_step_ok by exact Hl. apply IH; [exact Hbad|].
    simpl in Hf. rewrite <- app_assoc, app_length in Hf. lia.
Qed.

(** every byte string is either a well-formed attribute area or malformed in one of the two ways *)
Lemma attrs_dichotomy bs : (exists avs, attrs_wire bs avs) \/ (exists msg, attrs_malformed bs msg).
Proof.
  remember (length bs) as n eqn:K. revert bs K.
  induction n as [n IH] using lt_wf_ind; intros bs K.
  destruct bs as [|t [|l rest]].
  - left. exists []. constructor.
  - right. eexists. apply (am_short [] [] t). constructor.
  - destruct (N.lt_ge_cases (b2n l) 2) as [H2|H2].
    { right. eexists. apply (am_length [] [] t l rest); [constructor|auto]. }
    destruct (N.lt_ge_cases (2 + len rest) (b2n l)) as [H3|H3].
    { right. eexists. apply (am_length [] [] t l rest); [constructor|auto]. }
    destruct (split_at rest (b2n l - 2)) as (v & r & -> & Hv); [lia|].
    assert (Hl : b2n l = 2 + len v) by lia.
    destruct (IH (length r)) with (bs := r) as [[avs Hr]|[msg Hr]]; auto.
    { subst n. simpl. rewrite app_length. lia. }
    + left. eexists. constructor; eauto.
    + right. exists msg. inversion Hr as [pre avs t' Hp|pre avs t' l' rest Hp Hb]; subst.
      * pose proof (am_short (t :: l :: v ++ pre) _ t' (aw_cons t l v pre _ Hl Hp)) as X.
        simpl in X. rewrite <- app_assoc in X. exact X.
      * pose proof (am_length (t :: l :: v ++ pre) _ t' l' rest (aw_cons t l v pre _ Hl Hp) Hb) as X.
        simpl in X. rewrite <- app_assoc in X. exact X.
Qed.

Lemma attributes_decode_ok bs avs : attrs_wire bs avs -> attributes_decode bs = Ok avs.
Proof. intros H. unfold attributes_decode. apply (loop_ok bs avs H (length bs) [] []). lia. Qed.
Lemma attributes_decode_err bs msg : attrs_malformed bs msg -> attributes_decode bs = Err msg.
Proof.
  intros H. unfold attributes_decode.
  inversion H as [pre avs t Hp|pre avs t l rest Hp Hb]; subst;
    apply (loop_err pre avs Hp) with (pre := []) (acc := []); try lia; eauto 10.
Qed.
Lemma attributes_decode_ok_iff bs avs : attributes_decode bs = Ok avs <-> attrs_wire bs avs.
Proof.
  split; [|apply attributes_decode_ok]. intros H.
  destruct (attrs_dichotomy bs) as [[avs' W]|[msg W]].
  - rewrite (attributes_decode_ok _ _ W) in H. congruence.
  - rewrite (attributes_decode_err _ _ W) in H. congruence.
Qed.
Lemma attributes_decode_err_iff bs msg : attributes_decode bs = Err msg <-> attrs_malformed bs msg.
Proof.
  split; [|apply attributes_decode_err]. intros H.
  destruct (attrs_dichotomy bs) as [[avs' W]|[msg' W]].
  - rewrite (attributes_decode_ok _ _ W) in H. congruence.
  - pose proof W as W'. apply attributes_decode_err in W'. congruence.
Qed.

(** ** attribute encoding *)
Lemma attrs_wire_det bs avs avs' : attrs_wire bs avs -> attrs_wire bs avs' -> avs = avs'.
Proof. intros H H'. apply attributes_decode_ok in H, H'. congruence. Qed.

Lemma attrs_wire_fun avs : forall bs bs', attrs_wire bs avs -> attrs_wire bs' avs -> bs = bs'.
Proof.
  induction avs as [|a avs IH]; intros bs bs' H H'; inversion H; inversion H'; subst; auto.
  match goal with X : AVP _ _ = AVP _ _ |- _ => injection X as -> -> end. assert (l = l0) as -> by (apply b2n_inj; lia).
  f_equal. f_equal. f_equal. apply IH; assumption.
Qed.

Lemma attrs_wire_len bs avs : attrs_wire bs avs -> len bs = attrs_size avs.
Proof.
  induction 1; simpl; auto. autorewrite with len. rewrite IHattrs_wire. lia.
Qed.

Lemma attrs_wire_values bs avs : attrs_wire bs avs -> Forall (fun a => len (avp_value a) <= 253) avs.
Proof. induction 1; constructor; auto. simpl. pose proof (b2n_lt l). lia. Qed.

Lemma encode_loop_ok pr avs : forall bs acc, attrs_wire bs avs ->
  attributes_encode_loop pr avs acc = Ok (acc ++ bs).
Proof.
  induction avs as [|a avs IH]; intros bs acc H; inversion H; subst; simpl.
  - rewrite app_nil_r. reflexivity.
  - pose proof (b2n_lt l). destruct (253 <? len v) eqn:E; [lia|].
    rewrite b2n_n2b_small by lia. rewrite uadd_small by lia. cbn [bind].
    rewrite (IH rest) by assumption.
    replace (n2b (2 + len v)) with l by (apply b2n_inj; rewrite b2n_n2b_small; lia).
    rewrite <- app_assoc. reflexivity.
Qed.

Lemma encode_loop_err pr avs : forall acc, Exists (fun a => 253 < len (avp_value a)) avs ->
  attributes_encode_loop pr avs acc = Err "attribute is too large"%string.
Proof.
  induction avs as [|a avs IH]; intros acc H; inversion H; subst; simpl.
  - destruct (253 <? len (avp_value a)) eqn:E; [reflexivity|lia].
  - destruct (253 <? len (avp_value a)) eqn:E; [reflexivity|].
    rewrite b2n_n2b_small by lia. rewrite uadd_small by lia. cbn [bind]. apply IH. assumption.
Qed.

Lemma attrs_encodable avs : Forall (fun a => len (avp_value a) <= 253) avs -> exists bs, attrs_wire bs avs.
Proof.
  induction 1 as [|[t v] avs Ha H [bs IH]].
  - exists []. constructor.
  - exists (t :: n2b (2 + len v) :: v ++ bs). constructor; [|exact IH].
    simpl in Ha. rewrite b2n_n2b_small; lia.
Qed.

Lemma big_or_small avs :
  Forall (fun a => len (avp_value a) <= 253) avs \/ Exists (fun a => 253 < len (avp_value a)) avs.
Proof.
  induction avs as [|a avs [IH|IH]]; [left; constructor| |right; right; exact IH].
  destruct (N.le_gt_cases (len (avp_value a)) 253); [left; constructor|right; left]; assumption.
Qed.

Lemma attributes_encode_ok_iff pr avs bs : attributes_encode pr avs = Ok bs <-> attrs_wire bs avs.
Proof.
  unfold attributes_encode. split.
  - intros H. destruct (big_or_small avs) as [S|B].
    + apply attrs_encodable in S as [bs' S]. rewrite (encode_loop_ok pr avs bs' [] S) in H.
      simpl in H. congruence.
    + rewrite encode_loop_err in H by exact B. discriminate.
  - intros H. rewrite (encode_loop_ok pr avs bs [] H). reflexivity.
Qed.

(** ** packet decoding *)
Lemma header_shape {A} (bs : list A) : 20 <= len bs ->
  exists c id l1 l2 auth rest, bs = [c; id; l1; l2] ++ auth ++ rest /\ len auth = 16.
Proof.
  intros H. destruct (split_at bs 4) as (h & r & -> & Hh); [lia|].
  apply len4 in Hh as (c & id & l1 & l2 & ->).
  destruct (split_at r 16) as (a & r' & -> & Ha).
  { autorewrite with len in H. lia. }
  eauto 10.
Qed.

(** unfolding of [packet_decode] on a buffer of at least 20 bytes *)
Lemma packet_decode_header c id l1 l2 auth rest secret : len auth = 16 ->
  packet_decode ([c; id; l1; l2] ++ auth ++ rest) secret
  = let l := 256 * b2n l1 + b2n l2 in
    if l <? 20 then Err (InsufficientHeaderDefinedPacketLengthError l 20)
    else if 4096 <? l then Err (HeaderDefinedPacketLengthExceedsMaximumLimitError l 4096)
    else if 20 + len rest <? l then Err (InsufficientPacketPayloadLengthError l (20 + len rest))
    else
      do attrs <- map_err DecodingError (attributes_decode (firstn (N.to_nat (l - 20)) rest));
      Ok (Packet (code_from c) id auth secret attrs).
Proof.
  intros Ha. unfold packet_decode, RADIUS_PACKET_HEADER_LENGTH, MAX_PACKET_LENGTH.
  assert (Hlen : len ([c; id; l1; l2] ++ auth ++ rest) = 20 + len rest)
    by (autorewrite with len; lia).
  rewrite Hlen.
  replace (20 + len rest <? 20) with false by lia.
  replace (slice ([c; id; l1; l2] ++ auth ++ rest) 2 4) with (@Ok packet_error bytes [l1; l2]).
  2:{ symmetry. apply (slice_app [c; id] [l1; l2]); reflexivity. }
  cbn [bind u16_from_be]. rewrite (N.mul_comm (b2n l1) 256). cbv zeta.
  set (l := 256 * b2n l1 + b2n l2).
  destruct (l <? 20) eqn:E1; [reflexivity|].
  destruct (4096 <? l) eqn:E2; [reflexivity|].
  destruct (20 + len rest <? l) eqn:E3; [reflexivity|].
  replace (slice ([c; id; l1; l2] ++ auth ++ rest) 20 l)
    with (@Ok packet_error bytes (firstn (N.to_nat (l - 20)) rest)).
  2:{ unfold slice. rewrite Hlen.
      replace ((20 <=? l) && (l <=? 20 + len rest)) with true by lia.
      rewrite app_assoc, skipn_len_app; [reflexivity|]. autorewrite with len. lia. }
  cbn [bind]. destruct (map_err DecodingError _) as [attrs| | |]; cbn [bind]; try reflexivity.
  change (index ([c; id; l1; l2] ++ auth ++ rest) 0) with (@Ok packet_error byte c).
  change (index ([c; id; l1; l2] ++ auth ++ rest) 1) with (@Ok packet_error byte id).
  cbn [bind].
  rewrite (slice_app [c; id; l1; l2] auth rest 4 20) by (autorewrite with len; lia).
  reflexivity.
Qed.

Lemma packet_decode_short bs secret : len bs < 20 ->
  packet_decode bs secret = Err (InsufficientPacketPayloadLengthError 20 (len bs)).
Proof.
  intros H. unfold packet_decode, RADIUS_PACKET_HEADER_LENGTH.
  replace (len bs <? 20) with true by lia. reflexivity.
Qed.

Lemma packet_decode_wire bs secret c id auth attrs :
  wire_packet bs c id auth attrs ->
  packet_decode bs secret = Ok (Packet (code_from c) id auth secret attrs).
Proof.
  intros (l1 & l2 & body & padding & -> & Ha & Hl & Hm & W).
  rewrite packet_decode_header by exact Ha. cbv zeta. rewrite Hl.
  replace (20 + len body <? 20) with false by lia.
  replace (4096 <? 20 + len body) with false by lia.
  replace (20 + len (body ++ padding) <? 20 + len body) with false by (autorewrite with len; lia).
  rewrite firstn_len_app by lia.
  rewrite (attributes_decode_ok _ _ W). reflexivity.
Qed.

Lemma packet_decode_failure bs secret e : decode_failure bs e -> packet_decode bs secret = Err e.
Proof.
  intros H. inversion H; subst; clear H.
  - apply packet_decode_short; assumption.
  - destruct (split_at rest 16) as (auth & r & -> & Ha); [lia|].
    change (c :: id :: l1 :: l2 :: auth ++ r) with ([c; id; l1; l2] ++ auth ++ r).
    rewrite packet_decode_header by exact Ha. cbv zeta.
    replace (256 * b2n l1 + b2n l2 <? 20) with true by lia. reflexivity.
  - destruct (split_at rest 16) as (auth & r & -> & Ha); [lia|].
    change (c :: id :: l1 :: l2 :: auth ++ r) with ([c; id; l1; l2] ++ auth ++ r).
    rewrite packet_decode_header by exact Ha. cbv zeta.
    replace (256 * b2n l1 + b2n l2 <? 20) with false by lia.
    replace (4096 <? 256 * b2n l1 + b2n l2) with true by lia. reflexivity.
  - destruct (split_at rest 16) as (auth & r & -> & Ha); [lia|].
    change (c :: id :: l1 :: l2 :: auth ++ r) with ([c; id; l1; l2] ++ auth ++ r).
    rewrite packet_decode_header by exact Ha. cbv zeta.
    autorewrite with len in *.
    replace (256 * b2n l1 + b2n l2 <? 20) with false by lia.
    replace (4096 <? 256 * b2n l1 + b2n l2) with false by lia.
    replace (20 + len r <? 256 * b2n l1 + b2n l2) with true by lia.
    do 2 f_equal. lia.
  - rewrite packet_decode_header by assumption. cbv zeta. rewrite H1.
    replace (20 + len body <? 20) with false by lia.
    replace (4096 <? 20 + len body) with false by lia.
    replace (20 + len (body ++ padding) <? 20 + len body) with false by (autorewrite with len; lia).
    rewrite firstn_len_app by lia.
    rewrite (attributes_decode_err _ _ H3). reflexivity.
Qed.

Lemma decode_dichotomy bs :
  (exists c id auth attrs, wire_packet bs c id auth attrs) \/ (exists e, decode_failure bs e).
Proof.
  destruct (N.lt_ge_cases (len bs) 20) as [H|H].
  { right. eexists. apply df_short. exact H. }
  destruct (header_shape bs H) as (c & id & l1 & l2 & auth & rest & -> & Ha).
  set (l := 256 * b2n l1 + b2n l2).
  destruct (N.lt_ge_cases l 20) as [H1|H1].
  { right. eexists. apply df_len_small; [autorewrite with len; lia|exact H1]. }
  destruct (N.lt_ge_cases 4096 l) as [H2|H2].
  { right. eexists. apply df_len_large; [autorewrite with len; lia|exact H2]. }
  destruct (N.lt_ge_cases (20 + len rest) l) as [H3|H3].
  { right. eexists. apply df_truncated; autorewrite with len; unfold l in *; lia. }
  destruct (split_at rest (l - 20)) as (body & padding & -> & Hb).
  { lia. }
  destruct (attrs_dichotomy body) as [[avs W]|[msg W]].
  - left. exists c, id, auth, avs. exists l1, l2, body, padding.
    repeat split; auto; unfold l in *; lia.
  - right. exists (DecodingError msg). apply df_attrs; auto; unfold l in *; lia.
Qed.

Lemma packet_decode_ok_iff bs secret p :
  packet_decode bs secret = Ok p <->
  p_secret p = secret
  /\ exists c, wire_packet bs c (p_identifier p) (p_authenticator p) (p_attributes p)
               /\ reported_code c (p_code p).
Proof.
  split.
  - intros H. destruct (decode_dichotomy bs) as [(c & id & auth & attrs & W)|(e & F)].
    + pose proof W as W'. apply (packet_decode_wire _ secret) in W'. rewrite W' in H.
      injection H as <-. simpl. split; [reflexivity|]. exists c. split; [exact W|].
      apply code_from_reported.
    + rewrite (packet_decode_failure _ _ _ F) in H. discriminate.
  - intros (Hs & c & W & R). rewrite (packet_decode_wire _ _ _ _ _ _ W).
    apply reported_code_from in R. destruct p; simpl in *. congruence.
Qed.

Lemma packet_decode_err_iff bs secret e :
  packet_decode bs secret = Err e <-> decode_failure bs e.
Proof.
  split; [|apply packet_decode_failure].
  intros H. destruct (decode_dichotomy bs) as [(c & id & auth & attrs & W)|(e' & F)].
  - rewrite (packet_decode_wire _ _ _ _ _ _ W) in H. discriminate.
  - pose proof (packet_decode_failure _ secret _ F) as F'. congruence.
Qed.

Lemma packet_decode_total bs secret :
  (exists p, packet_decode bs secret = Ok p) \/ (exists e, packet_decode bs secret = Err e).
Proof.
  destruct (decode_dichotomy bs) as [(c & id & auth & attrs & W)|(e' & F)].
  - left. eexists. apply packet_decode_wire. exact W.
  - right. eexists. apply packet_decode_failure. exact F.
Qed.

(** ** API packets *)
Lemma api_step_auth p q : api_step p q -> p_authenticator q = p_authenticator p.
Proof. intros []; reflexivity. Qed.
Lemma api_step_secret p q : api_step p q -> p_secret q = p_secret p.
Proof. intros []; reflexivity. Qed.
Lemma api_step_code p q : api_step p q -> p_code q = p_code p.
Proof. intros []; reflexivity. Qed.
Lemma api_steps_same p q : api_steps p q ->
  p_authenticator q = p_authenticator p /\ p_secret q = p_secret p /\ p_code q = p_code p.
Proof.
  induction 1 as [|p q r H (IH1 & IH2 & IH3) S]; auto.
  rewrite (api_step_auth _ _ S), (api_step_secret _ _ S), (api_step_code _ _ S). auto.
Qed.
Lemma api_packet_auth p : api_packet p -> len (p_authenticator p) = 16.
Proof.
  induction 1; simpl; auto.
  - apply packet_decode_ok_iff in H as (_ & c & (l1 & l2 & body & padding & _ & Ha & _) & _).
    exact Ha.
  - rewrite (api_step_auth _ _ H0). exact IHapi_packet.
Qed.

(** ** packet encoding *)
(** the size field computed by the code: a 16-bit sum of truncated values *)
Definition size16 (p : packet) : N := 20 + attrs_size (p_attributes p) mod 65536.

Lemma marshal_ok pr p body : attrs_wire body (p_attributes p) -> size16 p < 65536 ->
  packet_marshal_binary pr p
  = if 4096 <? size16 p then Err "packet is too large"%string
    else Ok ([code_to_u8 (p_code p); p_identifier p] ++ u16_be (size16 p)
             ++ p_authenticator p ++ body).
Proof.
  intros W H. unfold packet_marshal_binary.
  apply (attributes_encode_ok_iff pr) in W as W'. rewrite W'. cbn [bind].
  rewrite (attrs_wire_len _ _ W). change (RADIUS_PACKET_HEADER_LENGTH mod 65536) with 20.
  rewrite uadd_small by exact H. cbn [bind]. unfold MAX_PACKET_LENGTH, size16.
  destruct (4096 <? _); reflexivity.
Qed.

Lemma marshal_overflow pr p body : attrs_wire body (p_attributes p) -> 65536 <= size16 p ->
  packet_marshal_binary pr p
  = match pr with
    | Debug => Panic
    | Release => Ok ([code_to_u8 (p_code p); p_identifier p] ++ u16_be (size16 p mod 65536)
                     ++ p_authenticator p ++ body)
    end.
Proof.
  intros W H. unfold packet_marshal_binary.
  apply (attributes_encode_ok_iff pr) in W as W'. rewrite W'. cbn [bind].
  rewrite (attrs_wire_len _ _ W). change (RADIUS_PACKET_HEADER_LENGTH mod 65536) with 20.
  unfold uadd. fold (size16 p). replace (size16 p <? 65536) with false by lia.
  destruct pr; cbn [bind]; [reflexivity|].
  unfold MAX_PACKET_LENGTH.
  replace (4096 <? size16 p mod 65536) with false.
  2:{ unfold size16 in *. set (m := attrs_size (p_attributes p) mod 65536) in *.
      assert (m < 65536) by (unfold m; apply N.mod_lt; lia). lia. }
  reflexivity.
Qed.

Lemma marshal_big pr p : Exists (fun a => 253 < len (avp_value a)) (p_attributes p) ->
  packet_marshal_binary pr p = Err "attribute is too large"%string.
Proof.
  intros B. unfold packet_marshal_binary, attributes_encode. rewrite encode_loop_err by exact B.
  reflexivity.
Qed.

(** every successful [marshal_binary] *)
Lemma marshal_inv pr p bs : packet_marshal_binary pr p = Ok bs ->
  exists body s, attrs_wire body (p_attributes p)
    /\ bs = [code_to_u8 (p_code p); p_identifier p] ++ u16_be s ++ p_authenticator p ++ body
    /\ s = wire_size p mod 65536 /\ s <= 4096.
Proof.
  intros H. destruct (big_or_small (p_attributes p)) as [S|B].
  2:{ rewrite marshal_big in H by exact B. discriminate. }
  apply attrs_encodable in S as [body W].
  assert (Hs : size16 p mod 65536 = wire_size p mod 65536) by (unfold size16, wire_size; lia).
  destruct (N.lt_ge_cases (size16 p) 65536) as [L|L].
  - rewrite (marshal_ok _ _ _ W L) in H. destruct (4096 <? size16 p) eqn:E; [discriminate|].
    injection H as <-. exists body, (size16 p). repeat split; auto; lia.
  - rewrite (marshal_overflow _ _ _ W L) in H. destruct pr; [discriminate|].
    injection H as <-. exists body, (size16 p mod 65536). repeat split; auto.
    unfold size16 in *. set (m := attrs_size (p_attributes p) mod 65536) in *.
    assert (m < 65536) by (unfold m; apply N.mod_lt; lia). lia.
Qed.

(** the authenticator octets a sender must put on the wire *)
Definition sent_authenticator (p : packet) (hdr body : bytes) : bytes :=
  match p_code p with
  | AccessRequest | StatusServer => p_authenticator p
  | AccountingRequest | DisconnectRequest | CoARequest =>
      md5 (hdr ++ zeros 16 ++ body ++ p_secret p)
  | _ => md5 (hdr ++ p_authenticator p ++ body ++ p_secret p)
  end.

Lemma len_sent_authenticator p hdr body :
  len (p_authenticator p) = 16 -> len (sent_authenticator p hdr body) = 16.
Proof. intros H. unfold sent_authenticator. destruct (p_code p); autorewrite with len; auto. Qed.

Lemma encode_of_marshal pr p hdr body :
  len hdr = 4 -> len (p_authenticator p) = 16 ->
  packet_marshal_binary pr p = Ok (hdr ++ p_authenticator p ++ body) ->
  packet_encode pr p
  = match p_code p with
    | StatusClient | Reserved | Invalid => Err (UnknownCodeError (code_debug (p_code p)))
    | _ => Ok (hdr ++ sent_authenticator p hdr body ++ body)
    end.
Proof.
  intros Hh Ha M. unfold packet_encode, sent_authenticator. rewrite M. cbn [map_err bind].
  assert (T : @slice_to packet_error (hdr ++ p_authenticator p ++ body) 4 = Ok hdr)
    by (apply slice_to_app; auto).
  assert (F : @slice_from packet_error (hdr ++ p_authenticator p ++ body) RADIUS_PACKET_HEADER_LENGTH
              = Ok body).
  { rewrite app_assoc. apply slice_from_app. unfold RADIUS_PACKET_HEADER_LENGTH. autorewrite with len. lia. }
  assert (S : forall new, @splice packet_error (hdr ++ p_authenticator p ++ body) 4 20 new
                          = Ok (hdr ++ new ++ body)).
  { intros new. apply splice_app; lia. }
  destruct (p_code p); try reflexivity; rewrite T; cbn [bind]; rewrite F; cbn [bind]; rewrite S;
    rewrite <- !app_assoc; reflexivity.
Qed.

Definition sendable (c : code) : Prop := ~ unsendable_code c.

Lemma encode_inv pr p bs : len (p_authenticator p) = 16 -> packet_encode pr p = Ok bs ->
  exists body s, attrs_wire body (p_attributes p) /\ sendable (p_code p)
    /\ s = wire_size p mod 65536 /\ s <= 4096
    /\ let hdr := [code_to_u8 (p_code p); p_identifier p] ++ u16_be s in
       bs = hdr ++ sent_authenticator p hdr body ++ body.
Proof.
  intros Ha H. destruct (packet_marshal_binary pr p) as [m|e| |] eqn:M.
  2-4: unfold packet_encode in H; rewrite M in H; discriminate.
  apply marshal_inv in M as M'. destruct M' as (body & s & W & -> & Hs & Hm).
  set (hdr := [code_to_u8 (p_code p); p_identifier p] ++ u16_be s) in *.
  assert (E : packet_marshal_binary pr p = Ok (hdr ++ p_authenticator p ++ body)) by exact M.
  apply encode_of_marshal in E; [|reflexivity|exact Ha].
  rewrite E in H. exists body, s.
  repeat split; auto.
  - intros [X|[X|X]]; rewrite X in H; discriminate.
  - cbv zeta. fold hdr. destruct (p_code p); congruence.
Qed.

Lemma encode_wire_size pr p bs : len (p_authenticator p) = 16 -> packet_encode pr p = Ok bs ->
  len bs = wire_size p.
Proof.
  intros Ha H. apply encode_inv in H as (body & s & W & _ & _ & _ & ->); [|exact Ha].
  unfold wire_size. rewrite <- (attrs_wire_len _ _ W).
  autorewrite with len. rewrite len_sent_authenticator by exact Ha. lia.
Qed.

(** encoding of packets that fit *)
Lemma encode_fit pr p : len (p_authenticator p) = 16 -> wire_size p < 65536 ->
  Forall (fun a => len (avp_value a) <= 253) (p_attributes p) ->
  (4096 < wire_size p -> packet_encode pr p = Err (EncodingError "packet is too large"))
  /\ (wire_size p <= 4096 -> unsendable_code (p_code p) ->
      packet_encode pr p = Err (UnknownCodeError (code_debug (p_code p))))
  /\ (wire_size p <= 4096 -> sendable (p_code p) ->
      exists body, attrs_wire body (p_attributes p)
        /\ let hdr := [code_to_u8 (p_code p); p_identifier p] ++ u16_be (wire_size p) in
           packet_encode pr p = Ok (hdr ++ sent_authenticator p hdr body ++ body)).
Proof.
  intros Ha Hs S. apply attrs_encodable in S as [body W].
  assert (E16 : size16 p = wire_size p) by (unfold size16, wire_size in *; lia).
  pose proof (marshal_ok pr _ _ W) as M. rewrite E16 in M. specialize (M Hs).
  repeat split.
  - intros L. replace (4096 <? wire_size p) with true in M by lia.
    unfold packet_encode. rewrite M. reflexivity.
  - intros L U. replace (4096 <? wire_size p) with false in M by lia.
    set (hdr := [code_to_u8 (p_code p); p_identifier p] ++ u16_be (wire_size p)) in *.
    assert (E : packet_marshal_binary pr p = Ok (hdr ++ p_authenticator p ++ body)) by exact M.
    apply encode_of_marshal in E; [|reflexivity|exact Ha]. rewrite E.
    destruct U as [X|[X|X]]; rewrite X; reflexivity.
  - intros L U. replace (4096 <? wire_size p) with false in M by lia.
    exists body. split; [exact W|].
    set (hdr := [code_to_u8 (p_code p); p_identifier p] ++ u16_be (wire_size p)) in *.
    assert (E : packet_marshal_binary pr p = Ok (hdr ++ p_authenticator p ++ body)) by exact M.
    apply encode_of_marshal in E; [|reflexivity|exact Ha]. cbv zeta. fold hdr. rewrite E.
    unfold sendable, unsendable_code in U. destruct (p_code p); try reflexivity; exfalso; tauto.
Qed.
