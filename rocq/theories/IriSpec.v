(* What a part of a URI or IRI means, RFC 3986 section 2: a list of octets and
   of separators.  A character of the reserved set that is written literally is
   a separator; escaped, it is data. *)
Require Import Verif.Base Verif.Text Verif.CodecModel Verif.InetModel Verif.IriModel.

Inductive token := Sep (c : Z) | Oct (b : Z).
(* the UTF-8 octets of a character, RFC 3987 section 3.1 *)
Definition utf8_of (c : Z) : bytes := match utf8_char c with Ok b => b | Err _ => [] end.
Definition char_tokens (reserved : text) (c : Z) : list token := if char_in c reserved then [Sep c] else map Oct (utf8_of c).
Fixpoint meaning (reserved : text) (s : text) : list token :=
  match s with
  | [] => []
  | c :: r =>
      if c =? 37 then
        match r with
        | h :: l :: r' =>
            match hex2 h l with
            | Some v => Oct v :: meaning reserved r'
            | None => char_tokens reserved c ++ meaning reserved r
            end
        | _ => char_tokens reserved c ++ meaning reserved r
        end
      else char_tokens reserved c ++ meaning reserved r
  end.

(* texts that can be encoded *)
Definition scalars (s : text) : Prop := Forall (fun c => scalar c = true) s.
(* no percent sign followed by two hexadecimal digits *)
Definition no_escape (s : text) : Prop := forall a b h l, s = a ++ 37 :: h :: l :: b -> hex2 h l = None.
(* every percent sign starts an escape, of a value with P; other characters have Q *)
Inductive escaped (P Q : Z -> Prop) : text -> Prop :=
| esc_nil : escaped P Q []
| esc_char c r : c <> 37 -> Q c -> escaped P Q r -> escaped P Q (c :: r)
| esc_pct h l v r : hex2 h l = Some v -> P v -> escaped P Q r -> escaped P Q (37 :: h :: l :: r).

Definition okchar (c : Z) : Prop := c <> 0 /\ scalar c = true.
(* escapes of a value other than % and null, and no other % and null *)
Definition clean := escaped (fun v => v <> 37 /\ v <> 0) okchar.
Definition points (s : text) : Prop := Forall (fun c => 0 <= c <= 1114111) s.
(* RFC 3986 section 2.3 and appendix A: unreserved characters, and the reserved ones allowed in a part *)
Definition unreserved_set : text :=
  tx "ABCDEFGHIJKLMNOPQRSTUVWXYZabcdefghijklmnopqrstuvwxyz0123456789-._~".
Definition sub_delims : text := tx "!$&'()*+,;=".
Definition allowed (p : part) : text :=
  match p with
  | User => sub_delims
  | Path => sub_delims ++ tx ":@/"
  | Query | Fragment => sub_delims ++ tx ":@/?"
  end.
(* every percent sign in an escape, and of other characters only unreserved and allowed ones *)
Definition legal (p : part) : text -> Prop := escaped (fun _ => True) (fun c => In c unreserved_set \/ In c (allowed p)).
(* hexadecimal digits *)
Definition digit_value (c v : Z) : Prop := 
  0 <= v < 16 /\ (at_ (tx "0123456789abcdef") v = c \/ at_ (tx "0123456789ABCDEF") v = c).
(* the separators that the unquoting functions know about *)
Definition separators (p : part) : text := match p with Path => tx "/" | Query => tx "&=" | _ => [] end.
(* control characters that stand for separators while unquoting; ':' and '@' do not come back in user names *)
Definition reserved_code (p : part) (c : Z) : Prop :=
  match p with Path | Query => In c replacements | User => In c (tx ":@") | Fragment => False end.
(* a part of a URI: ASCII, no escaped percent sign, and where separators are
   kept apart none of the control characters that stand for them *)
Definition uri_text (p : part) : text -> Prop :=
  escaped (fun v => v <> 37 /\ ~ (preserve_of p = true /\ In v replacements)) (fun c => 0 <= c < 128 /\ ~ (preserve_of p = true /\ In c replacements)).
