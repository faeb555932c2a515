(* The components of a URI or IRI and how they are written, RFC 3986 sections 3 and 5.3. *)
Require Coq.Strings.String. Import Coq.Strings.String.StringSyntax.
Require Import Verif.Base Verif.Text Verif.IriModel Verif.IriSpec Verif.AddrSpec.

(* a user name with or without a password; the host; the port *)
Record authority := Authority { au_user : option (text * option text); au_host : text; au_port : option Z }.
(* an empty query or fragment is one that is not there *)
Record uri := Uri { r_scheme : text; r_auth : option authority; r_path : text; r_query : text; r_fragment : text }.

Definition render_user (u : option (text * option text)) : text :=
  match u with
  | None => []
  | Some (n, None) => n ++ tx "@"
  | Some (n, Some p) => n ++ tx ":" ++ p ++ tx "@"
  end.
Definition render_auth (a : authority) : text :=
  render_user (au_user a) ++ au_host a ++ match au_port a with Some n => tx ":" ++ dec n | None => [] end.
Definition after (c : text) (s : text) : text := match s with [] => [] | _ => c ++ s end.
Definition render (u : uri) : text :=
  r_scheme u ++ tx ":" ++ match r_auth u with Some a => tx "//" ++ render_auth a | None => [] end ++
  r_path u ++ after (tx "?") (r_query u) ++ after (tx "#") (r_fragment u).

(* none of the characters l, and no tab or line end *)
Definition lacks (l : text) (s : text) : Prop := forall c, In c s -> ~ In c (9 :: 10 :: 13 :: l).
Definition scheme_set : text := tx "abcdefghijklmnopqrstuvwxyz0123456789+-.".
Definition scheme_form (s : text) : Prop :=
  (exists c r, s = c :: r /\ In c (tx "abcdefghijklmnopqrstuvwxyz")) /\ forall c, In c s -> In c scheme_set.
Definition user_form (u : text * option text) : Prop :=
  (fst u <> [] /\ lacks (tx "@:/?#[]") (fst u)) /\ forall p, snd u = Some p -> p <> [] /\ lacks (tx "@/?#[]") p.
Definition port_form (o : option Z) : Prop := forall n, o = Some n -> 0 <= n <= 65535.
(* schemes that urllib writes with // even without an authority *)
Definition with_slashes : list text :=
  map tx ["ftp"; "http"; "gopher"; "nntp"; "telnet"; "imap"; "wais"; "file"; "mms"; "https"; "shttp"; "snews"; "prospero"; "rtsp";
          "rtsps"; "rtspu"; "rsync"; "svn"; "svn+ssh"; "sftp"; "nfs"; "git"; "git+ssh"; "ws"; "wss"]%string.
(* the host is a name or an address of IPv4; it may be empty in those schemes *)
Definition auth_form (s : text) (a : authority) : Prop :=
  (forall u, au_user a = Some u -> user_form u) /\
  ((au_host a <> [] \/ In s with_slashes) /\ lacks (tx "@:/?#[]%") (au_host a)) /\ port_form (au_port a).
(* an absolute URI or IRI: with an authority the path is empty or starts with a slash, without
   one it does not start with two *)
Definition form (u : uri) : Prop :=
  scheme_form (r_scheme u) /\
  match r_auth u with
  | Some a => auth_form (r_scheme u) a /\ (r_path u = [] \/ exists r, r_path u = 47 :: r)
  | None => ~ In (r_scheme u) with_slashes /\ forall r, r_path u <> tx "//" ++ r
  end /\
  lacks (tx "?#") (r_path u) /\ lacks (tx "#") (r_query u) /\ lacks [] (r_fragment u).

(* ---- the parts ---- *)
Definition all_parts (P : part -> text -> Prop) (u : uri) : Prop :=
  (forall a n p, r_auth u = Some a -> au_user a = Some (n, p) -> P User n /\ forall w, p = Some w -> P User w) /\
  P Path (r_path u) /\ P Query (r_query u) /\ P Fragment (r_fragment u).
(* the same parts, of a scheme and port that are the same, up to R; the hosts up to H *)
Definition related (R : part -> text -> text -> Prop) (H : text -> text -> Prop) (u v : uri) : Prop :=
  r_scheme u = r_scheme v /\
  match r_auth u, r_auth v with
  | Some a, Some b =>
      match au_user a, au_user b with
      | Some (n, None), Some (m, None) => R User n m
      | Some (n, Some p), Some (m, Some q) => R User n m /\ R User p q
      | None, None => True
      | _, _ => False
      end /\ H (au_host a) (au_host b) /\ au_port a = au_port b
  | None, None => True
  | _, _ => False
  end /\
  R Path (r_path u) (r_path v) /\ R Query (r_query u) (r_query v) /\ R Fragment (r_fragment u) (r_fragment v).
Definition authority_text (u : uri) : text := match r_auth u with Some a => render_auth a | None => [] end.

(* texts that quoting keeps the meaning of: C49 *)
Definition quotable (p : part) (s : text) : Prop := scalars s /\ (no_escape s \/ clean s).
(* a legal part of a URI with the same meaning *)
Definition quoted_as (p : part) (s q : text) : Prop := meaning (allowed p) q = meaning (allowed p) s /\ legal p q.
(* parts of unreserved characters, and of those allowed there *)
Definition plain (p : part) (s : text) : Prop := forall c, In c s -> In c unreserved_set \/ In c (allowed p).
(* in small letters *)
Definition small (s : text) : Prop := forall c, In c s -> ~ 65 <= c <= 90.
Definition plain_host (s : text) : Prop := plain_name s /\ host s /\ small s.
(* the host of a URI: in small letters; names beyond ASCII go through lower and IDNA *)
Definition named (to : text -> res bytes) (low : text -> text) (h h' : text) : Prop :=
  ascii_text h /\ host h /\ same_name h h' /\ small h' \/
  ~ ascii_text h /\ h' <> [] /\ (ascii_text (low h) /\ host (low h) /\ h' = low h \/ ~ ascii_text (low h) /\ to (low h) = Ok h').
Definition all_hosts (P : text -> Prop) (u : uri) : Prop := forall a, r_auth u = Some a -> P (au_host a).

(* RFC 3986 6.2.3: the default port is left out, and a path of one slash after an authority;
   the library leaves it out without an authority as well *)
Definition default_port (s : text) (o : option Z) : option Z :=
  match o with
  | Some n => if list_eq_dec Z.eq_dec s (tx "http") then if n =? 80 then None else o
              else if list_eq_dec Z.eq_dec s (tx "https") then if n =? 443 then None else o
              else o
  | None => None
  end.
Definition normal (u : uri) : uri :=
  Uri (r_scheme u)
      (match r_auth u with Some a => Some (Authority (au_user a) (au_host a) (default_port (r_scheme u) (au_port a))) | None => None end)
      (match r_path u, r_query u, r_fragment u with [47], [], [] => [] | p, _, _ => p end)
      (r_query u) (r_fragment u).
(* escapes stand for no character that separates, nor for control characters *)
Definition gen_delims : text := tx ":/?#[]@".
Definition no_delims : text -> Prop := escaped (fun v => ~ In v gen_delims /\ 32 <= v) (fun c => c <> 0).
(* a part of an IRI with the meaning of that of a URI, as far as separators are told apart: C49 *)
Definition shown_as (p : part) (b s : text) : Prop := meaning (separators p) s = meaning (separators p) b.
(* the host of an IRI *)
Definition shown_host (from : bytes -> res text) (h h' : text) : Prop :=
  exists g, same_name h g /\ small g /\
    (no_ace g /\ h' = g \/ ~ no_ace g /\ from g = Ok h' /\ h' <> [] /\ lacks (tx "@:/?#[]%") h').
(* what comes back from a URI: no escapes, and none of a few characters that do not (C49) *)
Definition returns (p : part) (s : text) : Prop := scalars s /\ no_escape s /\ Forall (fun c => ~ reserved_code p c) s.
(* RFC 5280 7.4: the same URI after normalization *)
Definition same_uri (u v : uri) : Prop := related (fun _ => eq) same_name (normal u) (normal v).
(* a URI of plain parts, the host a name without A-labels *)
Definition any_case_plain (h : text) : Prop := ascii_text h /\ host h /\ forall g, same_name h g -> no_ace g.
Definition plain_uri (u : uri) : Prop := form u /\ ~ In 43 (r_scheme u) /\ all_parts plain u /\ all_hosts any_case_plain u.
