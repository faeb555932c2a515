(* C32, C33, C61, C62: PEM text. *)
Require Import Verif.Base Verif.BaseFacts Verif.Text Verif.PemModel Verif.PemSpec Verif.PemProofs Verif.PemSound Verif.PemCut Verif.PemMore.

(* C32: armor accepts every label over A-Z, 0-9 and space, every header list and every DER;
   unarmor gives the three back, detect sees the text *)
Theorem C32_armor_total : forall label headers der,
  label_ok label -> headers_ok headers -> exists pem, armor label der headers = Ok pem.
Proof. exact armor_total. Qed.
Print Assumptions C32_armor_total.

Theorem C32_pem_roundtrip : forall label headers der pem,
  label_ok label -> headers_ok headers -> bytes_ok der -> armor label der headers = Ok pem ->
  unarmor pem = Ok (Block label headers der) /\ detect pem = true.
Proof. exact one_block. Qed.
Print Assumptions C32_pem_roundtrip.

Theorem C32_detect : forall s, detect s = true <-> exists a b, s = a ++ tx "-----BEGIN" ++ b \/ s = a ++ tx "---- BEGIN" ++ b.
Proof. exact detect_spec. Qed.
Print Assumptions C32_detect.
Example C32_detect_ex : detect (tx "x ---- BEGIN SSH2 PUBLIC KEY ----") = true /\ detect (tx "----BEGIN X-----") = false.
Proof. split; vm_compute; reflexivity. Qed.

(* the armored text: first line, headers, base64 in lines of 64 characters (the last may be
   shorter), last line *)
Theorem C32_pem_shape : forall label headers der pem lines,
  label_ok label -> headers_ok headers -> bytes_ok der -> armor label der headers = Ok pem -> lines_of pem lines ->
  exists body,
    lines = [tx "-----BEGIN " ++ label ++ tx "-----"] ++ map (fun h => fst h ++ tx ": " ++ snd h) headers
            ++ body ++ [tx "-----END " ++ label ++ tx "-----"]
    /\ concat body = b64encode der
    /\ Forall (fun b => 0 < len b <= 64) body
    /\ forall a b c, body = a ++ b :: c -> c <> [] -> len b = 64.
Proof. exact armored_width. Qed.
Print Assumptions C32_pem_shape.

Example C32_ex :
  let hs := [(tx "Proc-Type", tx "4,ENCRYPTED"); (tx "DEK-Info", tx "A:B")] in
  let der := repeat 171 50 in
  label_ok (tx "RSA PRIVATE KEY 2") /\ headers_ok hs /\ bytes_ok der
  /\ match armor (tx "RSA PRIVATE KEY 2") der hs with
     | Ok p => unarmor p = Ok (Block (tx "RSA PRIVATE KEY 2") hs der) /\ len p = 174
     | Err _ => False
     end.
Proof.
  cbv zeta. split; [|split; [|split]].
  - now apply label_okb_ok.
  - split.
    + constructor; [now apply header_okb_ok|]. constructor; [now apply header_okb_ok|constructor].
    + constructor; [|constructor; [intros []|constructor]]. intros [H|[]]. discriminate.
  - apply Forall_forall. intros x X. apply repeat_spec in X. subst. unfold byte_ok. lia.
  - vm_compute. split; reflexivity.
Qed.

(* C33: any list of armored blocks with other text before, between and after *)
Theorem C33_pem_multiple : forall blocks text,
  blocks <> [] -> bundle blocks text -> unarmor_all text = Ok blocks.
Proof. exact bundle_roundtrip. Qed.
Print Assumptions C33_pem_multiple.
Theorem C33_pem_first : forall b blocks text, bundle (b :: blocks) text -> unarmor text = Ok b.
Proof. exact bundle_first. Qed.
Print Assumptions C33_pem_first.
(* unarmor() stops after the first block: whatever follows it does not matter *)
Theorem C33_pem_first_of_any : forall junk b p rest,
  silent_text junk -> line_end junk -> ok_block b -> armor_block b = Ok p -> unarmor (junk ++ p ++ rest) = Ok b.
Proof. exact first_block. Qed.
Print Assumptions C33_pem_first_of_any.
Theorem C33_pem_none : forall text, silent_text text -> unarmor_all text = Err ValueError /\ unarmor text = Err ValueError.
Proof. exact bundle_none. Qed.
Print Assumptions C33_pem_none.

(* what unarmor returns stands in the text: every block is a run of lines between a BEGIN
   line with its label and a line of dashes, with its headers and base64 in between; nothing
   between two returned blocks looks like a BEGIN line *)
Theorem C33_pem_sound : forall text blocks, unarmor_all text = Ok blocks ->
  blocks <> [] /\ forall lines, lines_of text lines -> pem_lines lines blocks.
Proof. exact unarmor_sound. Qed.
Print Assumptions C33_pem_sound.

Definition crt (n : Z) : block := Block (tx "CERTIFICATE") [] [48; 1; n].
Example C33_ex :
  match armor_block (crt 5), armor_block (crt 7) with
  | Ok p, Ok q =>
      let text := tx "subject: x" ++ [10] ++ p ++ q ++ tx "--- end" in
      bundle [crt 5; crt 7] text /\ unarmor_all text = Ok [crt 5; crt 7]
  | _, _ => False
  end.
Proof.
  assert (forall n, 0 <= n < 256 -> ok_block (crt n)) as K.
  { intros n N. apply crt_label; [now apply label_okb_ok|]. cbn. unfold byte_okb. lia. }
  assert (forall s, forallb (fun l => negb (starts_with (tx "-----BEGIN ") l || starts_with (tx "---- BEGIN ") l)) (flines s) = true -> silent_text s) as Q.
  { intros s S ls L. apply lines_unique in L. subst. apply Forall_forall. intros l I [r [->| ->]]; rewrite forallb_forall in S; specialize (S _ I);
    rewrite starts_app in S; [discriminate|rewrite orb_true_r in S; discriminate]. }
  destruct (armor_block (crt 5)) as [p|] eqn:P; [|discriminate]. destruct (armor_block (crt 7)) as [q|] eqn:R; [|discriminate]. cbv zeta.
  assert (bundle [crt 5; crt 7] (tx "subject: x" ++ [10] ++ p ++ q ++ tx "--- end")) as B.
  { rewrite (app_assoc (tx "subject: x") [10]). apply bu_block; [now apply Q| |apply K; lia|exact P|].
    - right. exists (tx "subject: x"), 10. split; [reflexivity|now left].
    - change (q ++ tx "--- end") with ([] ++ q ++ tx "--- end"). apply bu_block; [now apply Q|now left|apply K; lia|exact R|].
      apply bu_end. now apply Q. }
  split; [exact B|]. apply C33_pem_multiple; [discriminate|exact B].
Qed.

(* C62: how lines are ended does not matter, nor do empty lines *)
Theorem C62_line_ends : forall s t lines, lines_of s lines -> lines_of t lines ->
  unarmor_all s = unarmor_all t /\ unarmor s = unarmor t.
Proof. exact same_lines. Qed.
Print Assumptions C62_line_ends.
Theorem C62_crlf : forall s, unarmor_all (crlf s) = unarmor_all s /\ unarmor (crlf s) = unarmor s.
Proof. exact crlf_same. Qed.
Print Assumptions C62_crlf.
Example C62_ex : crlf [65; 10; 10; 66] = [65; 13; 10; 13; 10; 66] /\ lines_of [65; 10; 10; 66] [[65]; [66]] /\ lines_of [65; 13; 66; 10] [[65]; [66]].
Proof.
  split; [reflexivity|].
  assert (forall c, c = 65 \/ c = 66 -> Forall (fun c => ~ eol c) [c]) as F by (intros c C; repeat constructor; unfold eol; lia).
  split.
  - apply (lo_line [65] 10 [10; 66] [[66]]); [discriminate|now apply F; left|now left|]. apply lo_eol; [now left|].
    apply lo_last; [discriminate|now apply F; right].
  - apply (lo_line [65] 13 [66; 10] [[66]]); [discriminate|now apply F; left|now right|].
    apply (lo_line [66] 10 [] []); [discriminate|now apply F; right|now left|constructor].
Qed.

(* C61: damage is reported.  A text that holds one armored block (without headers) cut off
   anywhere before its last line is refused. *)
Theorem C61_truncated_partial : forall label der pem kept lost,
  label_ok label -> bytes_ok der -> armor label der [] = Ok pem ->
  pem = kept ++ lost ++ tx "-----END " ++ label ++ tx "-----" ++ [10] ->
  unarmor_all kept = Err ValueError /\ unarmor kept = Err ValueError.
Proof. exact cut_block. Qed.
Print Assumptions C61_truncated_partial.
Example C61_ex : exists pem, armor (tx "X") [1; 2; 3] [] = Ok pem
  /\ pem = (tx "-----BEGIN X-----" ++ [10] ++ tx "AQ") ++ (tx "ID" ++ [10]) ++ tx "-----END " ++ tx "X" ++ tx "-----" ++ [10].
Proof. eexists. split; reflexivity. Qed.

(* base64 whose last group of four is not filled by digits and padding is refused, and
   nothing else is *)
Theorem C61_base64_partial : forall s k, ~ In 61 s -> (b64decode (s ++ repeat 61 k) = Err ValueError <-> incomplete s (Z.of_nat k)).
Proof. exact base64_refused. Qed.
Print Assumptions C61_base64_partial.
Theorem C61_broken_block_partial : forall text junk label body stop rest,
  lines_of text (junk ++ (tx "-----BEGIN " ++ label ++ tx "-----") :: body ++ stop :: rest) ->
  Forall (fun l => ~ begin_like l) junk -> label_ok label -> Forall (fun w => ~ ends w /\ ~ In 58 w) body -> ends stop ->
  b64decode (concat body) = Err ValueError -> unarmor_all text = Err ValueError /\ unarmor text = Err ValueError.
Proof. exact broken_block. Qed.
Print Assumptions C61_broken_block_partial.
Example C61_base64_ex : incomplete (tx "AQ") 1 /\ b64decode (tx "AQ=") = Err ValueError /\ b64decode (tx "AQ==") = Ok [1] /\
  unarmor_all (tx "-----BEGIN X-----" ++ [10] ++ tx "AQ=" ++ [10] ++ tx "-----END X-----") = Err ValueError.
Proof.
  split; [|repeat split; vm_compute; reflexivity]. exists 2. split; [|right; left; split; [reflexivity|lia]].
  apply (hd_digit 65 [81] 1); [unfold digit; lia|]. apply (hd_digit 81 [] 0); [unfold digit; lia|constructor].
Qed.

(* but a second block that is cut off is dropped without notice *)
Theorem C61_truncated_refuted : exists b1 b2 p1 p2 kept lost,
  ok_block b1 /\ ok_block b2 /\ armor_block b1 = Ok p1 /\ armor_block b2 = Ok p2
  /\ p2 = kept ++ lost /\ len kept > len (tx "-----BEGIN CERTIFICATE-----") /\ lost <> []
  /\ unarmor_all (p1 ++ kept) = Ok [b1].
Proof.
  assert (forall n, 0 <= n < 256 -> ok_block (crt n)) as K.
  { intros n N. apply crt_label; [now apply label_okb_ok|]. cbn. unfold byte_okb. lia. }
  destruct (armor_block (crt 5)) as [p1|] eqn:P; [|discriminate]. destruct (armor_block (crt 7)) as [p2|] eqn:R; [|discriminate].
  exists (crt 5), (crt 7), p1, p2, (firstn 32 p2), (skipn 32 p2). vm_compute in P, R. inversion P; inversion R; subst p1 p2.
  split; [apply K; lia|]. split; [apply K; lia|]. repeat split; try reflexivity; discriminate.
Qed.
Print Assumptions C61_truncated_refuted.
(* a block whose last line is missing swallows the block after it *)
Theorem C61_missing_end_refuted : exists b1 b2 p1 p2 kept,
  ok_block b1 /\ ok_block b2 /\ armor_block b1 = Ok p1 /\ armor_block b2 = Ok p2
  /\ p1 = kept ++ tx "-----END CERTIFICATE-----" ++ [10] /\ unarmor_all (kept ++ p2) = Ok [b1].
Proof.
  assert (forall n, 0 <= n < 256 -> ok_block (crt n)) as K.
  { intros n N. apply crt_label; [now apply label_okb_ok|]. cbn. unfold byte_okb. lia. }
  destruct (armor_block (crt 5)) as [p1|] eqn:P; [|discriminate]. destruct (armor_block (crt 7)) as [p2|] eqn:R; [|discriminate].
  exists (crt 5), (crt 7), p1, p2, (firstn 33 p1). vm_compute in P, R. inversion P; inversion R; subst p1 p2.
  split; [apply K; lia|]. split; [apply K; lia|]. repeat split; reflexivity.
Qed.
Print Assumptions C61_missing_end_refuted.
(* characters that are not base64 are skipped, so damaged data comes out as other data;
   the label of the last line is not compared *)
Theorem C61_damaged_body_refuted : exists pem bad b b',
  ok_block b /\ armor_block b = Ok pem /\ len bad = len pem /\ unarmor_all bad = Ok [b'] /\ b_der b' <> b_der b.
Proof.
  exists (tx "-----BEGIN X-----" ++ [10] ++ tx "AQIDBAUG" ++ [10] ++ tx "-----END X-----" ++ [10]),
         (tx "-----BEGIN X-----" ++ [10] ++ tx "AQID!*!*" ++ [10] ++ tx "-----END Y-----" ++ [10]),
         (Block (tx "X") [] [1; 2; 3; 4; 5; 6]), (Block (tx "X") [] [1; 2; 3]).
  split; [|repeat split; (reflexivity || discriminate)].
  apply crt_label; [now apply label_okb_ok|reflexivity].
Qed.
Print Assumptions C61_damaged_body_refuted.
(* a label outside A-Z, 0-9 and space is accepted by armor and not found by unarmor *)
Theorem C61_label_refuted : exists label der pem,
  armor label der [] = Ok pem /\ bytes_ok der /\ unarmor_all pem = Err ValueError.
Proof.
  exists (tx "X509-CRL"), [1; 2; 3]. eexists. split; [reflexivity|]. split; [now apply bytes_okb_spec|]. reflexivity.
Qed.
Print Assumptions C61_label_refuted.
