(* C49: percent-encoding of the parts of IRIs. *)
Require Import Verif.Base Verif.BaseFacts Verif.Text Verif.InetModel Verif.CodecModel Verif.IriModel Verif.IriSpec Verif.IriProofs Verif.IriUnquote Verif.IriParts.

(* an escape is a percent sign and two hexadecimal digits of either case *)
Theorem C49_escapes : forall h l v, hex2 h l = Some v <-> exists a b, digit_value h a /\ digit_value l b /\ v = 16 * a + b.
Proof. exact hex2_spec. Qed.
Print Assumptions C49_escapes.
Example C49_escapes_ex : hex2 102 57 = Some 249 /\ hex2 70 57 = Some 249 /\ hex2 71 57 = None.
Proof. repeat split; reflexivity. Qed.

(* texts without escapes, and texts whose escapes and characters are neither the
   percent sign nor null: quoting keeps the octets, literal reserved characters
   and escaped reserved characters apart; false without these limits, see below *)
Theorem C49_quote_keeps_meaning_partial : forall p s, scalars s -> s <> [] -> no_escape s \/ clean s ->
  exists q, quote_part p s = Ok (Some q) /\ meaning (allowed p) q = meaning (allowed p) s.
Proof. exact quote_keeps_allowed. Qed.
Print Assumptions C49_quote_keeps_meaning_partial.
Lemma no_percent s : ~ In 37 s -> no_escape s.
Proof. intros N a b h l ->. destruct N. apply in_or_app. right. left. reflexivity. Qed.
Example C49_quote_plain_ex : no_escape (tx "/a b/100% " ++ [8364]) /\
  quote_part Path (tx "/a b/100% " ++ [8364]) = Ok (Some (tx "/a%20b/100%25%20%E2%82%AC")).
Proof. split; [apply has_escape_spec; vm_compute; reflexivity|vm_compute; reflexivity]. Qed.
Ltac clean_tac :=
  match goal with
  | |- escaped _ _ [] => constructor
  | |- escaped _ _ (37 :: ?h :: ?l :: _) => eapply esc_pct; [vm_compute; reflexivity|cbn; lia|clean_tac]
  | |- escaped _ _ (_ :: _) => apply esc_char; [lia|split; [lia|vm_compute; reflexivity]|clean_tac]
  end.
(* a%2f%ff%C3%A9: the slash stays escaped, the lone octet too, and the letter is decoded and coded again *)
Example C49_quote_escapes_ex : clean (97 :: 37 :: 50 :: 102 :: 37 :: 102 :: 102 :: 37 :: 67 :: 51 :: 37 :: 65 :: 57 :: []) /\
  quote_part Path (tx "a%2f%ff%C3%A9") = Ok (Some (tx "a%2f%ff%C3%A9")) /\
  quote_part Path (tx "a%2f%61/b") = Ok (Some (tx "a%2fa/b")).
Proof. split; [unfold clean, okchar; clean_tac|split; vm_compute; reflexivity]. Qed.

(* what quoting gives has every percent sign in an escape, and of other
   characters only unreserved ones and those allowed in that part *)
Theorem C49_quoted_is_legal : forall p s q, points s -> quote_part p s = Ok (Some q) -> legal p q.
Proof. exact quote_legal. Qed.
Print Assumptions C49_quoted_is_legal.
Example C49_quoted_is_legal_ex : quote_part Query (tx "a=%zz#%2G%2f" ++ [10; 1114111]) = Ok (Some (tx "a=%25zz%23%252G%2f%0A%F4%8F%BF%BF")).
Proof. vm_compute. reflexivity. Qed.

(* unquoting keeps the octets and the separators / of a path and & = of a query,
   when no percent sign is escaped and, in paths and queries, none of five control
   characters occurs; false without these limits, and for other reserved characters *)
Theorem C49_unquote_keeps_meaning_partial : forall p b, uri_text p b ->
  meaning (separators p) (unquote_part p b) = meaning (separators p) b.
Proof. exact unquote_keeps. Qed.
Print Assumptions C49_unquote_keeps_meaning_partial.
Ltac plain_text := match goal with |- escaped _ _ ?t => let u := eval vm_compute in t in change t with u end.
Ltac uri_tac :=
  match goal with
  | |- escaped _ _ [] => constructor
  | |- escaped _ _ (37 :: ?h :: ?l :: _) => eapply esc_pct; [vm_compute; reflexivity|cbn; intuition lia|uri_tac]
  | |- escaped _ _ (_ :: _) => apply esc_char; [lia|cbn; intuition lia|uri_tac]
  end.
Example C49_unquote_keeps_meaning_ex : uri_text Query (tx "a=b%26c%C3%A9&d%FF") /\
  unquote_part Query (tx "a=b%26c%C3%A9&d%FF") = tx "a=b%26c" ++ [233] ++ tx "&d%ff".
Proof. split; [unfold uri_text; plain_text; uri_tac|vm_compute; reflexivity]. Qed.

(* quoting and unquoting a text without escapes gives it back: all characters
   but five control characters in paths and queries, and ':' and '@' in user names *)
Theorem C49_round_trip_partial : forall p s, scalars s -> s <> [] -> no_escape s -> Forall (fun c => ~ reserved_code p c) s ->
  exists q, quote_part p s = Ok (Some q) /\ unquote_part p q = s.
Proof. exact round_trip. Qed.
Print Assumptions C49_round_trip_partial.
Example C49_round_trip_ex : let s := tx "/x y/%&=?" ++ [233; 8364; 119070; 37] in
  scalars s /\ no_escape s /\ Forall (fun c => ~ reserved_code Path c) s /\
  exists q, quote_part Path s = Ok (Some q) /\ q = tx "/x%20y/%25&=%3F%C3%A9%E2%82%AC%F0%9D%84%9E%25" /\ unquote_part Path q = s.
Proof.
  cbv zeta. split; [repeat (constructor; [vm_compute; reflexivity|]); constructor|]. split; [apply has_escape_spec; vm_compute; reflexivity|].
  split; [repeat (constructor; [cbn; lia|]); constructor|]. eexists. split; [vm_compute; reflexivity|]. split; vm_compute; reflexivity.
Qed.

(* a part of a URI, shown as an IRI and turned back, means the same *)
Theorem C49_uri_iri_uri_partial : forall p b, uri_text p b -> escaped (fun v => v <> 0) (fun c => c <> 0) b -> b <> [] ->
  exists q, quote_part p (unquote_part p b) = Ok (Some q) /\ meaning (separators p) q = meaning (separators p) b.
Proof. exact back_and_forth. Qed.
Print Assumptions C49_uri_iri_uri_partial.
Example C49_uri_iri_uri_ex : uri_text Path (tx "a%2Fb/%c3%a9%ff") /\ escaped (fun v => v <> 0) (fun c => c <> 0) (tx "a%2Fb/%c3%a9%ff") /\
  quote_part Path (unquote_part Path (tx "a%2Fb/%c3%a9%ff")) = Ok (Some (tx "a%2fb/%C3%A9%ff")).
Proof. split; [unfold uri_text; plain_text; uri_tac|]. split; [plain_text; uri_tac|vm_compute; reflexivity]. Qed.

(* ---- where it is lost ---- *)
(* an escaped percent sign followed by two digits is unescaped: the URI %2541
   names the octets "%41"; it is shown as %41, and quoting makes the letter A of it *)
Theorem C49_percent_lost_refuted : exists b, quote_part Path b = Ok (Some (tx "%41")) /\ unquote_part Path b = tx "%41" /\
  quote_part Path (unquote_part Path b) = Ok (Some (tx "A")) /\
  meaning [] b = map Oct (tx "%41") /\ meaning [] (tx "%41") = map Oct (tx "A").
Proof. exists (tx "%2541"). repeat split; vm_compute; reflexivity. Qed.
Print Assumptions C49_percent_lost_refuted.
(* a stray percent sign takes in the digits of the escape after it *)
Theorem C49_stray_percent_refuted : exists s, quote_part Path s = Ok (Some (tx "%41")) /\
  meaning [] s = map Oct (tx "%41") /\ meaning [] (tx "%41") = map Oct (tx "A").
Proof. exists (tx "%4%31"). repeat split; vm_compute; reflexivity. Qed.
Print Assumptions C49_stray_percent_refuted.
(* null characters beside escapes: the marker for extracted escapes is the quoted null *)
Theorem C49_null_refuted : exists s, quote_part Path s = Err IndexError /\ escaped (fun _ => True) (fun _ => True) s.
Proof. exists (tx "%00%ff"). split; [vm_compute; reflexivity|]. plain_text. repeat (eapply esc_pct; [vm_compute; reflexivity|exact I|]). constructor. Qed.
Print Assumptions C49_null_refuted.
Definition uri_char (c : Z) : Prop := 0 <= c < 128.
(* a control character of a path is turned into a slash, literal or escaped *)
Theorem C49_control_refuted : exists b, uri_char b /\ unquote_part Path [b] = tx "/" /\ meaning (tx "/") [b] = [Oct b] /\
  unquote_part Path (pct b) = tx "/" /\ (exists q, quote_part Path [b] = Ok (Some q) /\ unquote_part Path q <> [b]).
Proof.
  exists 26. split; [unfold uri_char; lia|]. split; [vm_compute; reflexivity|]. split; [vm_compute; reflexivity|]. split; [vm_compute; reflexivity|].
  exists (tx "%1A"). split; [vm_compute; reflexivity|]. intros H. vm_compute in H. discriminate.
Qed.
Print Assumptions C49_control_refuted.
(* reserved characters other than / in paths and & = in queries: escaped ones
   become literal when a URI is shown, and stay so when it is turned back *)
Theorem C49_escaped_reserved_refuted : exists b q, unquote_part Path b = tx "!" /\
  quote_part Path (unquote_part Path b) = Ok (Some q) /\
  meaning (allowed Path) b = [Oct 33] /\ meaning (allowed Path) q = [Sep 33].
Proof. exists (tx "%21"), (tx "!"). repeat split; vm_compute; reflexivity. Qed.
Print Assumptions C49_escaped_reserved_refuted.
(* a colon in a user name comes back as an escape *)
Theorem C49_user_colon_refuted : exists s q, quote_part User s = Ok (Some q) /\ unquote_part User q <> s.
Proof. exists (tx "a:b"), (tx "a%3Ab"). split; [vm_compute; reflexivity|]. intros H. vm_compute in H. discriminate. Qed.
Print Assumptions C49_user_colon_refuted.
