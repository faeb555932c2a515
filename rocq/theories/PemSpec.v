(* What PEM text is, independently of the functions of pem.py (only the record
   [block], [armor] and Python's base64 decoder are taken from there). *)
Require Import Verif.Base Verif.Text Verif.PemModel.

(* octets that end a line *)
Definition eol (c : Z) : Prop := c = 10 \/ c = 13.
(* a label: letters A-Z, digits, spaces; not empty *)
Definition label_ok (l : text) : Prop :=
  l <> [] /\ Forall (fun c => 65 <= c <= 90 \/ 48 <= c <= 57 \/ c = 32) l.
(* white space at the ends of a header value is not significant *)
Definition ends_clean (v : text) : Prop :=
  forall c r, (v = c :: r \/ v = r ++ [c]) -> is_space c = false.
Definition header_ok (h : text * text) : Prop :=
  Forall (fun c => 0 <= c < 128 /\ ~ eol c /\ c <> 58) (fst h)
  /\ Forall (fun c => 0 <= c < 128 /\ ~ eol c) (snd h)
  /\ ends_clean (snd h).
Definition headers_ok (hs : list (text * text)) : Prop := Forall header_ok hs /\ NoDup (map fst hs).

(* the lines of a text: its maximal runs of octets other than CR and LF *)
Inductive lines_of : bytes -> list bytes -> Prop :=
| lo_nil : lines_of [] []
| lo_eol c r ls : eol c -> lines_of r ls -> lines_of (c :: r) ls
| lo_last w : w <> [] -> Forall (fun c => ~ eol c) w -> lines_of w [w]
| lo_line w c r ls : w <> [] -> Forall (fun c => ~ eol c) w -> eol c -> lines_of r ls -> lines_of (w ++ c :: r) (w :: ls).

(* text that holds no PEM block: no line of it starts like the first line of a block *)
Definition begin_like (l : bytes) : Prop :=
  exists r, l = tx "-----BEGIN " ++ r \/ l = tx "---- BEGIN " ++ r.
Definition silent_text (s : bytes) : Prop := forall ls, lines_of s ls -> Forall (fun l => ~ begin_like l) ls.
(* text after which a new line starts *)
Definition line_end (s : bytes) : Prop := s = [] \/ exists r c, s = r ++ [c] /\ eol c.

(* a block and its armored form *)
Definition ok_block (b : block) : Prop := label_ok (b_type b) /\ headers_ok (b_headers b) /\ bytes_ok (b_der b).
Definition armor_block (b : block) : res bytes := armor (b_type b) (b_der b) (b_headers b).
(* text made of other text and armored blocks *)
Inductive bundle : list block -> bytes -> Prop :=
| bu_end s : silent_text s -> bundle [] s
| bu_block j b p s bs : silent_text j -> line_end j -> ok_block b -> armor_block b = Ok p -> bundle bs s ->
    bundle (b :: bs) (j ++ p ++ s).

(* the grammar of the lines that unarmor reads *)
Definition begins_as (l : bytes) (ty : text) : Prop :=
  label_ok ty /\ exists d e r, (d = tx "-----" \/ d = tx "---- ") /\ (e = tx "-----" \/ e = tx " ----")
                             /\ l = d ++ tx "BEGIN " ++ ty ++ e ++ r.
(* of several readings (the label may end in a space) the longest label counts *)
Definition begins (l : bytes) (ty : text) : Prop :=
  begins_as l ty /\ forall ty', begins_as l ty' -> len ty' <= len ty.
Definition ends (l : bytes) : Prop := exists r, l = tx "-----" ++ r \/ l = tx "---- " ++ r.
(* a header line: name, colon, value *)
Definition header_of (l : bytes) (h : text * text) : Prop :=
  exists v, l = fst h ++ 58 :: v /\ ~ In 58 (fst h) /\ snd h = strip v.
(* the last header with a name counts *)
Definition dict_of (hs ps : list (text * text)) : Prop :=
  NoDup (map fst hs)
  /\ forall k v, In (k, v) hs <-> exists a b, ps = a ++ (k, v) :: b /\ ~ In k (map fst b).
(* the lines of one block after its first line, up to its last *)
Definition block_body (ls : list bytes) (b : block) : Prop :=
  exists hl bl last ps,
    ls = hl ++ bl ++ [last] /\ Forall2 header_of hl ps /\ dict_of (b_headers b) ps
    /\ Forall (fun l => ~ ends l) bl /\ ends last
    /\ b64decode (concat bl) = Ok (b_der b).
Definition no_begin (ls : list bytes) : Prop := forall l ty, In l ls -> ~ begins l ty.
Inductive pem_lines : list bytes -> list block -> Prop :=
| pl_rest ls : no_begin ls -> pem_lines ls []
| pl_open junk l ty hl ps bl :                       (* a block that is not finished *)
    no_begin junk -> begins l ty -> Forall2 header_of hl ps -> Forall (fun l => ~ ends l) bl ->
    pem_lines (junk ++ l :: hl ++ bl) []
| pl_block junk l ls b rest bs :
    no_begin junk -> begins l (b_type b) -> block_body ls b -> pem_lines rest bs ->
    pem_lines (junk ++ l :: ls ++ rest) (b :: bs).
