(* Model of the host name check of certificates: /repo/asn1crypto/x509.py,
   Certificate.valid_domains (2741), valid_ips (2776), is_valid_domain_ip (2894),
   _is_wildcard_domain (2960) and _is_wildcard_match (2993).

   A certificate is seen through what the check reads: the general names of the
   subject alternative name extension (the native text of domain names, the
   octets of addresses) and the attributes of the subject.  Both properties keep their list in a cache;
   certificates are taken not to change after the first reading.

   Python's 'idna' codec and the platform's inet_pton and inet_ntop are arguments of the
   definitions.  idna_ascii below is what the codec does to ASCII texts. *)
Require Import Verif.Base Verif.Text Verif.NameModel Verif.InetModel.

(* s.encode('idna').decode('ascii') for texts of ASCII characters *)
Definition is_ascii (s : text) : bool := forallb (fun c => (0 <=? c) && (c <? 128)) s.
Fixpoint idna_labels (l : list text) : bool :=
  match l with
  | [] => true
  | [w] => len w <? 64
  | w :: r => (0 <? len w) && (len w <? 64) && idna_labels r
  end.
Definition idna_ascii (s : text) : res text :=
  if is_ascii s && idna_labels (split_on 46 s) then Ok s else Err UnicodeError.

(* str.lower() of an ASCII text *)
Definition lower_char (c : Z) : Z := if (65 <=? c) && (c <=? 90) then c + 32 else c.
Definition lower_ascii (s : text) : text := map lower_char s.

Definition has (c : Z) (s : text) : bool := existsb (Z.eqb c) s.
Definition count (c : Z) (s : text) : Z := len (filter (Z.eqb c) s).

(* '$' in a regular expression also matches before a final line feed *)
Definition chomp (s : text) : text := match rev s with 10 :: r => rev r | _ => s end.

(* re.match('^\\d+\\.\\d+\\.\\d+\\.\\d+$', s) for ASCII s *)
Definition looks_ipv4 (s : text) : bool :=
  let parts := split_on 46 (chomp s) in
  (len parts =? 4) && forallb (fun w => negb (len w =? 0) && forallb is_digit w) parts.

(* ---- regular expressions without groups, classes, escapes and braces ---- *)
Inductive item :=
| IStart | IEnd
| IOne (p : Z -> bool) | IOpt (p : Z -> bool) | IStar (p : Z -> bool) | IPlus (p : Z -> bool).
(* the character c of a pattern: a dot matches anything but a line feed *)
Definition atom (c x : Z) : bool := if c =? 46 then negb (x =? 10) else x =? c.
(* ( ) [ ] { } \ : syntax that is not interpreted here *)
Definition other_syntax (c : Z) : bool :=
  (c =? 40) || (c =? 41) || (c =? 91) || (c =? 93) || (c =? 123) || (c =? 125) || (c =? 92).
Definition quantifier (c : Z) : bool := (c =? 42) || (c =? 43) || (c =? 63).
Fixpoint parse (s : text) : option (list item) :=
  match s with
  | [] => Some []
  | c :: r =>
      if c =? 94 then option_map (cons IStart) (parse r)
      else if c =? 36 then option_map (cons IEnd) (parse r)
      else if other_syntax c || quantifier c then None
      else
        match r with
        | q :: r' =>
            if q =? 42 then option_map (cons (IStar (atom c))) (parse r')
            else if q =? 43 then option_map (cons (IPlus (atom c))) (parse r')
            else if q =? 63 then option_map (cons (IOpt (atom c))) (parse r')
            else option_map (cons (IOne (atom c))) (parse r)
        | [] => Some [IOne (atom c)]
        end
  end.
Section Star.
  Variable p : Z -> bool.
  Variable k : bool -> text -> bool.
  Fixpoint star (start : bool) (s : text) : bool :=
    k start s || match s with c :: s' => p c && star false s' | [] => false end.
End Star.
(* whether some way of reading the items succeeds from here; start: at the
   beginning of the text *)
Fixpoint run (l : list item) (start : bool) (s : text) : bool :=
  match l with
  | [] => true
  | IStart :: r => start && run r start s
  | IEnd :: r => (match s with [] => true | [c] => c =? 10 | _ => false end) && run r start s
  | IOne p :: r => match s with c :: s' => p c && run r false s' | [] => false end
  | IOpt p :: r => run r start s || match s with c :: s' => p c && run r false s' | [] => false end
  | IStar p :: r => star p (run r) start s
  | IPlus p :: r => match s with c :: s' => p c && star p (run r) false s' | [] => false end
  end.
(* bool(re.compile(pattern).match(s)); Err OutOfFuel: a pattern this model does
   not interpret, among them those that re refuses with re.error *)
Fixpoint run_any (alts : list text) (s : text) : res bool :=
  match alts with
  | [] => Ok false
  | a :: r =>
      match parse a with
      | None => Err OutOfFuel
      | Some l => do b <- run_any r s; Ok (run l true s || b)
      end
  end.
Definition re_match (pattern s : text) : res bool := run_any (split_on 124 pattern) s.

(* label.replace('*', '.*') *)
Definition dot_stars (s : text) : text := flat_map (fun c => if c =? 42 then [46; 42] else [c]) s.

(* x509.py:2960-2991, _is_wildcard_domain *)
Definition is_wildcard (domain : text) : bool :=
  if negb (count 42 domain =? 1) then false
  else
    let labels := split_on 46 (lower_ascii domain) in
    let first := hd [] labels in
    if negb (has 42 first) then false
    else if eqb_text (slice first 0 4) (tx "xn--") then false
    else true.

(* x509.py:2993-3030, _is_wildcard_match; both lists hold at least one label *)
Definition wildcard_match (domain valid : list text) : res bool :=
  let first := hd [] domain in
  let wildcard := hd [] valid in
  if negb (forallb (fun xy => eqb_text (fst xy) (snd xy)) (combine (tl domain) (tl valid)) && (len (tl domain) =? len (tl valid)))
  then Ok false
  else if eqb_text wildcard [42] then Ok true
  else re_match ([94] ++ dot_stars wildcard ++ [36]) first.

(* ---- the certificate ---- *)
Inductive gname := GDns (s : text) | GIp (octets : bytes) | GOther.
Record cert := { c_san : option (list gname); c_subject : list (list attr) }.

(* x509.py:2766, the pattern for common names:
   ^(\*\.)?(?:[a-zA-Z0-9](?:[a-zA-Z0-9\-]*[a-zA-Z0-9])?\.)+[a-zA-Z]{2,}$ *)
Definition is_alpha (c : Z) : bool := ((65 <=? c) && (c <=? 90)) || ((97 <=? c) && (c <=? 122)).
Definition is_alnum (c : Z) : bool := is_alpha c || is_digit c.
Definition cn_label (w : text) : bool :=
  negb (len w =? 0) && is_alnum (hd 0 w) && is_alnum (last w 0) && forallb (fun c => is_alnum c || (c =? 45)) w.
Fixpoint cn_labels (l : list text) : bool :=
  match l with
  | [] => false
  | [w] => (2 <=? len w) && forallb is_alpha w
  | w :: r => cn_label w && cn_labels r
  end.
Definition cn_pattern (s : text) : bool :=
  let s := chomp s in
  let s := match s with 42 :: 46 :: r => r | _ => s end in
  let labels := split_on 46 s in
  (2 <=? len labels) && cn_labels labels.

(* x509.py:2755-2758 *)
Definition san_domains (l : list gname) : list text :=
  fold_left (fun acc g => match g with GDns s => if mem s acc then acc else acc ++ [s] | _ => acc end) l [].
(* x509.py:2765-2772 *)
Fixpoint cn_domains (l : list attr) : res (list text) :=
  match l with
  | [] => Ok []
  | x :: r =>
      if eqb_text (a_type x) (tx "common_name") then
        match a_value x with
        | RText s => do d <- cn_domains r; Ok (if cn_pattern s then s :: d else d)
        | _ => Err TypeError
        end
      else cn_domains r
  end.
(* x509.py:2741-2774; an extension without names counts as false *)
Definition valid_domains (c : cert) : res (list text) :=
  match c_san c with
  | Some (g :: l) => Ok (san_domains (g :: l))
  | _ => cn_domains (concat (c_subject c))
  end.
(* x509.py:2776-2791 *)
Fixpoint san_ips (ntop : bool -> bytes -> res text) (l : list gname) : res (list (option text)) :=
  match l with
  | [] => Ok []
  | GIp o :: r => do t <- ip_native ntop o; do ts <- san_ips ntop r; Ok (t :: ts)
  | _ :: r => san_ips ntop r
  end.
Definition valid_ips (ntop : bool -> bytes -> res text) (c : cert) : res (list (option text)) :=
  match c_san c with
  | Some l => san_ips ntop l
  | None => Ok []
  end.

(* x509.py:2894-2958, is_valid_domain_ip *)
Section Check.
  Variable idna : text -> res text.
  Variable pton : bool -> text -> res bytes.   (* true: AF_INET6 *)
  Variable ntop : bool -> bytes -> res text.

  Fixpoint check_domains (labels : list text) (l : list text) : res bool :=
    match l with
    | [] => Ok false
    | v :: r =>
        do e <- idna v;
        let e := lower_ascii e in
        let valid := split_on 46 e in
        if negb (len valid =? len labels) then check_domains labels r
        else if forallb (fun xy => eqb_text (fst xy) (snd xy)) (combine valid labels) then Ok true
        else if is_wildcard e then
          do b <- wildcard_match labels valid;
          if b then Ok true else check_domains labels r
        else check_domains labels r
    end.
  (* None.find is no attribute *)
  Fixpoint check_ips (ip : bytes) (l : list (option text)) : res bool :=
    match l with
    | [] => Ok false
    | None :: r => Err AttributeError
    | Some v :: r =>
        do b <- pton (negb (has 46 v)) v;
        if eqb_bytes b ip then Ok true else check_ips ip r
    end.
  Definition is_valid_domain_ip (c : cert) (s : text) : res bool :=
    do e <- idna s;
    let e := lower_ascii e in
    let v6 := has 58 e in
    let v4 := negb v6 && looks_ipv4 e in
    if negb v6 && negb v4 then
      do ds <- valid_domains c;
      check_domains (split_on 46 e) ds
    else
      do ips <- valid_ips ntop c;
      match ips with
      | [] => Ok false
      | _ => do ip <- pton v6 e; check_ips ip ips
      end.
End Check.
