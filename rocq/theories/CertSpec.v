(* What general names mean, which URLs are listed, what a certificate says of itself. *)
Require Import Verif.Base Verif.Text Verif.NameModel Verif.NameSpec Verif.AddrSpec Verif.UriSpec Verif.CertModel.

(* ---- general names ---- *)
Inductive gvalue := VMail (s : text) | VDns (s : text) | VUri (u : uri) | VDir (n : name) | VIp (c : bytes) | VId (c : bytes).
(* RFC 5280 7.1 to 7.5; octets otherwise *)
Definition same_value (L : prep_lib) (v w : gvalue) : Prop :=
  match v, w with
  | VMail s, VMail t => same_mailbox s t
  | VDns s, VDns t => AddrSpec.same_name s t
  | VUri u, VUri x => same_uri u x
  | VDir m, VDir n => Forall2 (same_attrs L) m n
  | VIp c, VIp d => c = d
  | VId c, VId d => c = d
  | _, _ => False
  end.
(* the values for which C37 and C79 to C81 tell how they are compared *)
Definition plain_value (L : prep_lib) (v : gvalue) : Prop :=
  match v with
  | VMail s => plain_mail s
  | VDns s => plain_name s
  | VUri u => plain_uri u
  | VDir n => comparable L n /\ Forall distinct_types n
  | VIp _ | VId _ => True
  end.
(* alternatives that are not compared *)
Definition not_compared (g : general) : Prop := g = GOther \/ g = GX400 \/ g = GEdi.
Definition same_kind (a b : general) : Prop :=
  match a, b with
  | GMail _, GMail _ | GDns _, GDns _ | GUri _, GUri _ | GDir _, GDir _ | GIp _, GIp _ | GId _, GId _ => True
  | _, _ => False
  end.

(* ---- URLs ---- *)
(* s begins with one of the texts ws, whatever the case *)
Definition begins (ws : list text) (s : text) : Prop := exists w h r, In w ws /\ s = h ++ r /\ AddrSpec.same_name h w.
Definition url_prefixes : list text := [tx "http://"; tx "https://"; tx "ldap://"; tx "ldaps://"].
Definition http_prefix : list text := [tx "http://"].
(* lower: letter by letter, no other letter becomes one of these prefixes *)
Definition letterwise (low : text -> text) : Prop := forall s, exists ws, low s = concat ws /\
  Forall2 (fun c w => if c <? 128 then w = [if (65 <=? c) && (c <=? 90) then c + 32 else c]
                      else exists x r, w = x :: r /\ ~ In x (tx "htpsldap:/")) s ws.
Section Urls.
  Context {N : Type}.
  Notation gen := (@gen N).
  Notation point := (@point N).
  (* the first URI with P; those before it can be read *)
  Definition first_of (P : text -> Prop) (l : list gen) (v : option text) : Prop :=
    match v with
    | Some s => exists a b, l = a ++ Url (Ok s) :: b /\ P s /\ forall t, In (Url t) a -> exists w, t = Ok w /\ ~ P w
    | None => forall t, In (Url t) l -> exists w, t = Ok w /\ ~ P w
    end.
  (* an unreadable URI before any with P *)
  Definition first_bad (P : text -> Prop) (l : list gen) (e : exn) : Prop :=
    exists a b, l = a ++ Url (Err e) :: b /\ forall t, In (Url t) a -> exists w, t = Ok w /\ ~ P w.
  (* the URIs of a distribution point with a full name *)
  Definition uris (p : point) : list (res text) :=
    match p with Some (Full l) => flat_map (fun g => match g with Url v => [v] | _ => [] end) l | _ => [] end.
  (* each point as often as it has URIs *)
  Definition once_per_uri (l : list point) : list point := flat_map (fun p => map (fun _ => p) (uris p)) l.
  (* the URIs with P of the entries with the method m, in their order *)
  Inductive listed (m : text) (P : text -> Prop) : list (text * gen) -> list text -> Prop :=
  | listed_nil : listed m P [] []
  | listed_take s r o : P s -> listed m P r o -> listed m P ((m, Url (Ok s)) :: r) (s :: o)
  | listed_method m' g r o : m' <> m -> listed m P r o -> listed m P ((m', g) :: r) o
  | listed_kind g r o : (forall v, g <> Url v) -> listed m P r o -> listed m P ((m, g) :: r) o
  | listed_scheme s r o : ~ P s -> listed m P r o -> listed m P ((m, Url (Ok s)) :: r) o.
End Urls.

(* ---- certificates ---- *)
(* the octets of keys that are named and not empty *)
Definition absent_or_filled (b : option bytes) : Prop := b <> Some [].
(* a hash that tells two texts apart, and of a fixed length *)
Definition tells (h : bytes -> bytes) (a b : bytes) : Prop := (h a = h b -> a = b) /\ len (h a) = 32 /\ len (h b) = 32.
