(* Model of /repo/asn1crypto/_iri.py:37-170, iri_to_uri and uri_to_iri, and of the class URI
   of /repo/asn1crypto/x509.py (124-178).

   urlsplit, urlunsplit and the attributes of what urlsplit returns are written out after
   CPython 3.11 (urllib/parse.py).  Arguments: the idna codec and lower of AddrModel,
   whether a bracketed host is accepted (an IPv6 address) and whether a netloc that is not
   ASCII passes the check of its compatibility characters. *)
Require Import Verif.Base Verif.Text Verif.DomainModel Verif.IriModel Verif.AddrModel.

(* s.partition(c) and s.rpartition(c): before, whether c was found, after *)
Fixpoint partition (c : Z) (s : text) : text * bool * text :=
  match s with
  | [] => ([], false, [])
  | x :: r => if x =? c then ([], true, r) else let '(a, f, b) := partition c r in (x :: a, f, b)
  end.
Definition rpartition (c : Z) (s : text) : text * bool * text :=
  match rsplit c s with Some (a, b) => (a, true, b) | None => ([], false, s) end.
(* up to the first character with p *)
Fixpoint span (p : Z -> bool) (s : text) : text * text :=
  match s with
  | [] => ([], [])
  | x :: r => if p x then ([], s) else let '(a, b) := span p r in (x :: a, b)
  end.

Definition is_upper (c : Z) : bool := (65 <=? c) && (c <=? 90).
Definition is_lower (c : Z) : bool := (97 <=? c) && (c <=? 122).
Definition scheme_char (c : Z) : bool :=
  is_upper c || is_lower c || is_digit c || (c =? 43) || (c =? 45) || (c =? 46).
(* the schemes with an authority *)
Definition uses_netloc : list text :=
  [tx "ftp"; tx "http"; tx "gopher"; tx "nntp"; tx "telnet"; tx "imap"; tx "wais"; tx "file"; tx "mms"; tx "https"; tx "shttp";
   tx "snews"; tx "prospero"; tx "rtsp"; tx "rtsps"; tx "rtspu"; tx "rsync"; tx "svn"; tx "svn+ssh"; tx "sftp"; tx "nfs"; tx "git";
   tx "git+ssh"; tx "ws"; tx "wss"].
Definition in_list (s : text) (l : list text) : bool := existsb (eqb_text s) l.

Record split := Split { u_scheme : text; u_netloc : text; u_path : text; u_query : text; u_fragment : text }.

(* urlunsplit; None and empty parts are the same to it *)
Definition with_netloc (u : split) : text :=
  let url := u_path u in
  if negb (eqb_text (u_netloc u) []) || in_list (u_scheme u) uses_netloc || starts (tx "//") url then
    tx "//" ++ u_netloc u ++ (match url with [] => [] | c :: _ => if c =? 47 then url else 47 :: url end)
  else url.
Definition urlunsplit (u : split) : text :=
  let url := with_netloc u in
  let url := match u_scheme u with [] => url | s => s ++ 58 :: url end in
  let url := match u_query u with [] => url | s => url ++ 63 :: s end in
  match u_fragment u with [] => url | s => url ++ 35 :: s end.

Section Uri.
  Variable idna_to : text -> res bytes.
  Variable idna_from : bytes -> res text.
  Variable lower_to : text -> text.
  Variable bracket_ok : text -> bool.
  Variable netloc_ok : text -> bool.

  (* leading control characters and spaces, then all tabs and line ends are removed *)
  Definition cleaned (s : text) : text :=
    filter (fun c => negb ((c =? 9) || (c =? 10) || (c =? 13))) (lstrip_by (fun c => (0 <=? c) && (c <=? 32)) s).
  Definition split_scheme (s : text) : text * text :=
    match s with
    | c :: _ =>
        let '(a, found, b) := partition 58 s in
        if found && (is_upper c || is_lower c) && forallb scheme_char a then (lower_ascii a, b) else ([], s)
    | [] => ([], s)
    end.
  Definition split_netloc (url : text) : res (text * text) :=
    if starts (tx "//") url then
      let '(netloc, url) := span (fun c => (c =? 47) || (c =? 63) || (c =? 35)) (skipn 2 url) in
      let o := has 91 netloc in
      let c := has 93 netloc in
      if xorb o c then Err ValueError
      else if o && c then
        let '(_, _, h) := partition 91 netloc in
        let '(h, _, _) := partition 93 h in
        if bracket_ok h then Ok (netloc, url) else Err ValueError
      else Ok (netloc, url)
    else Ok ([], url).
  Definition urlsplit (s : text) : res split :=
    let '(scheme, url) := split_scheme (cleaned s) in
    do nu <- split_netloc url;
    let '(netloc, url) := nu in
    let '(url, _, fragment) := partition 35 url in
    let '(url, _, query) := partition 63 url in
    if is_ascii netloc || netloc_ok netloc then Ok (Split scheme netloc url query fragment) else Err ValueError.

  (* the attributes username, password, hostname and port *)
  Definition userinfo (u : split) : option text * option text :=
    let '(a, found, _) := rpartition 64 (u_netloc u) in
    if found then
      let '(user, have, pw) := partition 58 a in
      (Some user, if have then Some pw else None)
    else (None, None).
  Definition hostinfo (u : split) : text * option text :=
    let '(_, _, h) := rpartition 64 (u_netloc u) in
    let '(_, bracket, b) := partition 91 h in
    let '(host, port) :=
      if bracket then
        let '(host, _, p) := partition 93 b in
        let '(_, _, port) := partition 58 p in (host, port)
      else
        let '(host, _, port) := partition 58 h in (host, port) in
    (host, match port with [] => None | _ => Some port end).
  Definition hostname (u : split) : option text :=
    match fst (hostinfo u) with
    | [] => None
    | h => let '(h, found, zone) := partition 37 h in
           Some (lower lower_to h ++ (if found then [37] else []) ++ zone)
    end.
  Definition port (u : split) : res (option Z) :=
    match snd (hostinfo u) with
    | None => Ok None
    | Some p => if forallb is_digit p then if dec_value p <=? 65535 then Ok (Some (dec_value p)) else Err ValueError
                else Err ValueError
    end.

  (* _urlquote and _urlunquote of a part that may be None *)
  Definition quoted (safe : text) (o : option text) : res (option text) :=
    match o with None => Ok None | Some s => urlquote safe s end.
  Definition joined (o : option text) : text := match o with Some s => s | None => [] end.
  (* 85-99, 152-163: user, password, host and port together *)
  Definition netloc_of (user pw host : option text) (port : option text) : text :=
    match user with
    | Some u => u ++ (match pw with Some (x :: p) => 58 :: x :: p | _ => [] end) ++ [64]
    | None => []
    end ++ joined host ++ match port with Some p => 58 :: p | None => [] end.

  (* 37-116 iri_to_uri; the result is an ASCII byte string *)
  Definition iri_to_uri (value : text) (normalize : bool) : res text :=
    do u <- urlsplit value;
    do scheme <- urlquote [] (u_scheme u);
    do host <- (match hostname u with Some h => do b <- idna_encode idna_to h; Ok (Some b) | None => Ok None end);
    do user <- quoted (safe_of User) (fst (userinfo u));
    do pw <- quoted (safe_of User) (snd (userinfo u));
    do p <- port u;
    let p := option_map dec p in
    let s := joined scheme in
    let default := match p with
                   | Some p => eqb_text s (tx "http") && eqb_text p (tx "80") || eqb_text s (tx "https") && eqb_text p (tx "443")
                   | None => false
                   end in
    let netloc := netloc_of user pw host (if normalize && default then None else p) in
    do path <- urlquote (safe_of Path) (u_path u);
    do query <- urlquote (safe_of Query) (u_query u);
    do fragment <- urlquote (safe_of Fragment) (u_fragment u);
    let path := if normalize && eqb_text (joined query) [] && eqb_text (joined fragment) [] && eqb_text (joined path) [47]
                then [] else joined path in
    Ok (urlunsplit (Split s netloc path (joined query) (joined fragment))).

  (* 119-170 uri_to_iri; octets beyond ASCII are refused by urlsplit *)
  Definition uri_to_iri (value : bytes) : res text :=
    if is_ascii value then
      do u <- urlsplit value;
      let user := option_map (urlunquote (remap_of User) false) (fst (userinfo u)) in
      let pw := option_map (urlunquote (remap_of User) false) (snd (userinfo u)) in
      do host <- (match hostname u with Some h => do t <- idna_decode idna_from h; Ok (Some t) | None => Ok None end);
      do p <- port u;
      let netloc := netloc_of user pw host (option_map dec p) in
      Ok (urlunsplit (Split (u_scheme u) netloc (unquote_part Path (u_path u)) (unquote_part Query (u_query u))
                            (unquote_part Fragment (u_fragment u))))
    else Err UnicodeError.

  (* x509.py:126-145 set *)
  Definition uri_set (v : text) : res aobj := do b <- iri_to_uri v false; Ok (Addr (Some b) None (Some v)).
  (* 166-178 __unicode__ *)
  Definition uri_str (o : aobj) : aobj * res text :=
    match a_contents o with None => (o, Ok []) | Some c => text_of uri_to_iri o c end.
  (* 150-164 __eq__; iri_to_uri(None) raises TypeError *)
  Definition uri_key (o : aobj) : aobj * res text :=
    match native uri_to_iri o with
    | (o, Ok (Some v)) => (o, iri_to_uri v true)
    | (o, Ok None) => (o, Err TypeError)
    | (o, Err e) => (o, Err e)
    end.
  Definition uri_eq (a b : aobj) : aobj * aobj * res bool :=
    match uri_key a with
    | (a, Err e) => (a, b, Err e)
    | (a, Ok x) => match uri_key b with
                   | (b, Err e) => (a, b, Err e)
                   | (b, Ok y) => (a, b, Ok (eqb_text x y))
                   end
    end.
End Uri.
