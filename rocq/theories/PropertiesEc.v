(* Properties C39 and C40: EC points and P1363 signatures. *)
Require Import Verif.Base Verif.Text Verif.IntModel Verif.IntSpec Verif.TagSpec Verif.PrimModel Verif.PrimSpec
  Verif.ContModel Verif.ContSpec Verif.ContPath Verif.ContEx Verif.PrimLoad Verif.EcModel Verif.EcSpec Verif.EcProofs.

Definition c_octets : pcls := Cls 0 4 [] [].
Definition c_bits : pcls := Cls 0 3 [] [].

(* ---- C39: points ---- *)
(* whatever the floating point logarithm returns *)
Theorem C39_coordinates_partial (octets_of : Z -> Z) (k : kind) (c : pcls) (x y : Z) (o : obj) :
  point_kind k -> from_coords octets_of k c x y = Ok o ->
  exists n d, uncompressed n x y d /\ snd (get_native k c o) = Ok (NBytes d) /\ snd (to_coords k c o) = Ok (x, y).
Proof. exact (from_coords_sound octets_of k c x y o). Qed.
Print Assumptions C39_coordinates_partial.

Theorem C39_reloaded_partial (octets_of : Z -> Z) (k : kind) (c : pcls) (t : tagging) (x y : Z) (o : obj) (e : bytes) :
  point_kind k -> init_tagging c no_params = Ok t -> tagging_ok t -> tags_compatible c no_params ->
  from_coords octets_of k c x y = Ok o -> snd (dump k c o false) = Ok e -> len e < 2 ^ 1008 ->
  exists o2, load k c no_params e true = Ok o2 /\ snd (to_coords k c o2) = Ok (x, y).
Proof. exact (point_reload octets_of k c t x y o e). Qed.
Print Assumptions C39_reloaded_partial.

(* an exact logarithm makes from_coords refuse exactly the pairs whose larger number is
   a power of 256; rounding only ever adds or removes pairs near those *)
Theorem C39_accepted_partial (octets_of : Z -> Z) (k : kind) (c : pcls) (t : tagging) (x y : Z) :
  point_kind k -> init_tagging c no_params = Ok t -> 0 <= octets_of x -> 0 <= octets_of y ->
  ((exists o, from_coords octets_of k c x y = Ok o) <-> 0 < x /\ 0 < y /\ Z.max x y < 256 ^ Z.max (octets_of x) (octets_of y)).
Proof. exact (from_coords_iff octets_of k c t x y). Qed.
Print Assumptions C39_accepted_partial.
Theorem C39_exact_logarithm_partial (octets_of : Z -> Z) (k : kind) (c : pcls) (t : tagging) (x y : Z) :
  exact_octets octets_of -> point_kind k -> init_tagging c no_params = Ok t -> 0 < x -> 0 < y ->
  ((exists o, from_coords octets_of k c x y = Ok o) <-> ~ exists m, 0 <= m /\ Z.max x y = 256 ^ m).
Proof. exact (exact_accepts octets_of k c t x y). Qed.
Print Assumptions C39_exact_logarithm_partial.
Example C39_ex_exact : exact_octets log_up.
Proof. exact log_up_exact. Qed.

(* octets that are not an uncompressed point of some field are refused, if their number is odd *)
Theorem C39_to_coords_partial (k : kind) (c : pcls) (o : obj) (d : bytes) :
  bytes_ok d -> snd (get_native k c o) = Ok (NBytes d) ->
  (forall x y, snd (to_coords k c o) = Ok (x, y) -> len d mod 2 = 1 -> uncompressed ((len d - 1) / 2) x y d) /\
  (hd 0 d <> 4 -> snd (to_coords k c o) = Err ValueError).
Proof. exact (coords_any k c o d). Qed.
Print Assumptions C39_to_coords_partial.

Example C39_ex : (exists o, from_coords log_up KOctetBits c_bits 258 7 = Ok o /\ snd (to_coords KOctetBits c_bits o) = Ok (258, 7) /\
    snd (dump KOctetBits c_bits o false) = Ok [3; 6; 0; 4; 1; 2; 0; 7]) /\
  (exists o, load KOctets c_octets no_params [4; 3; 2; 1; 1] true = Ok o /\ snd (to_coords KOctets c_octets o) = Err ValueError).
Proof. split; eexists; repeat split; vm_compute; reflexivity. Qed.

(* no function in the place of the logarithm makes zero acceptable, and log 1 = 0 exactly *)
Theorem C39_zero_refuted : forall octets_of, from_coords octets_of KOctets c_octets 0 5 = Err ValueError.
Proof. intros f. reflexivity. Qed.
Print Assumptions C39_zero_refuted.
Theorem C39_one_refuted : forall octets_of, octets_of 1 = 0 -> from_coords octets_of KOctets c_octets 1 1 = Err OverflowError.
Proof. intros f H. unfold from_coords, log_octets. cbn [Z.leb Z.compare bind]. rewrite H. reflexivity. Qed.
Print Assumptions C39_one_refuted.
(* powers of 256 *)
Theorem C39_power_refuted : exists x y, 0 < x /\ 0 < y /\ from_coords log_up KOctets c_octets x y = Err OverflowError.
Proof. exists 256, 7. repeat split; vm_compute; reflexivity. Qed.
Print Assumptions C39_power_refuted.
(* the coordinates are padded to each other's size, not to the size of the field: a point
   of a two octet field is encoded in one octet each *)
Theorem C39_width_refuted : exists x y o d, 0 < x < 256 ^ 2 /\ 0 < y < 256 ^ 2 /\ from_coords log_up KOctets c_octets x y = Ok o /\
  snd (get_native KOctets c_octets o) = Ok (NBytes d) /\ len d <> 1 + 2 * 2.
Proof. exists 3, 5. eexists. exists [4; 3; 5]. repeat split; vm_compute; try reflexivity; discriminate. Qed.
Print Assumptions C39_width_refuted.
(* no point has an even number of octets, but coordinates are returned *)
Theorem C39_malformed_refuted : exists d o x y, load KOctets c_octets no_params d true = Ok o /\
  snd (to_coords KOctets c_octets o) = Ok (x, y) /\
  (exists p, snd (get_native KOctets c_octets o) = Ok (NBytes p) /\ forall n a b, ~ uncompressed n a b p).
Proof.
  exists [4; 4; 4; 1; 2; 3]. eexists. exists 1, 515. split; [vm_compute; reflexivity|]. split; [vm_compute; reflexivity|].
  exists [4; 1; 2; 3]. split; [vm_compute; reflexivity|]. intros n a b U. apply uncompressed_len in U. change (len [4; 1; 2; 3]) with 4 in U. lia.
Qed.
Print Assumptions C39_malformed_refuted.

(* ---- C40: signatures ---- *)
(* [carries v r s]: reading field r, then field s of the object gives the two numbers *)
Theorem C40_constructed (r s : Z) : exists v,
  x_make (methods DSA) no_params None (ADict [(tx "r", APrim (NInt r)); (tx "s", APrim (NInt s))]) = Ok v /\ carries v r s.
Proof. exact (made_sig r s). Qed.
Print Assumptions C40_constructed.
Theorem C40_loaded (r s : Z) (d : bytes) (v : value) :
  der DSA (stags DSA no_params) (sig_value r s) d -> cload DSA no_params d true = Ok v -> carries v r s.
Proof. exact (loaded_sig r s d v). Qed.
Print Assumptions C40_loaded.

Theorem C40_to_p1363 (v : value) (r s : Z) : carries v r s -> 0 <= r -> 0 <= s ->
  (forall w, 1 <= w -> r < 256 ^ w -> s < 256 ^ w -> exists d, snd (to_p1363 v (Some w)) = Ok d /\ two_fields w r s d) /\
  (forall w, ~ (1 <= w /\ r < 256 ^ w /\ s < 256 ^ w) -> snd (to_p1363 v (Some w)) = Err ValueError) /\
  (exists w d, snd (to_p1363 v None) = Ok d /\ two_fields w r s d /\ 1 <= w /\
     forall w', 1 <= w' -> r < 256 ^ w' -> s < 256 ^ w' -> w <= w').
Proof. exact (write_p1363 v r s). Qed.
Print Assumptions C40_to_p1363.

Theorem C40_and_back (v : value) (r s : Z) (width : option Z) (d : bytes) :
  carries v r s -> 0 <= r -> 0 <= s -> snd (to_p1363 v width) = Ok d -> exists v', from_p1363 d = Ok v' /\ carries v' r s.
Proof. exact (back_p1363 v r s width d). Qed.
Print Assumptions C40_and_back.

Theorem C40_from_p1363 (d : bytes) (n : Z) : bytes_ok d -> 1 <= n -> len d = 2 * n ->
  exists v, from_p1363 d = Ok v /\ snd (to_p1363 v (Some n)) = Ok d.
Proof. exact (p1363_back d n). Qed.
Print Assumptions C40_from_p1363.

(* any octets, even an odd number of them, are taken: the second number gets the extra one *)
Theorem C40_any_octets (d : bytes) : bytes_ok d -> exists a b v, d = a ++ b /\ len a = len d / 2 /\
  from_p1363 d = Ok v /\ carries v (be_value a) (be_value b).
Proof. exact (read_p1363 d). Qed.
Print Assumptions C40_any_octets.

Example C40_ex : der DSA (stags DSA no_params) (sig_value 100 5) [48; 6; 2; 1; 100; 2; 1; 5] /\
  (do v <- cload DSA no_params [48; 7; 2; 2; 1; 44; 2; 1; 5] true; snd (to_p1363 v None)) = Ok [1; 44; 0; 5] /\
  (do v <- cload DSA no_params [48; 7; 2; 2; 1; 44; 2; 1; 5] true; snd (to_p1363 v (Some 3))) = Ok [0; 1; 44; 0; 0; 5] /\
  (do v <- cload DSA no_params [48; 7; 2; 2; 1; 44; 2; 1; 5] true; snd (to_p1363 v (Some 1))) = Err ValueError /\
  (do v <- from_p1363 [0; 1; 44; 0; 0; 5]; snd (through [] (ADump false) DSA v)) = Ok (RDump [48; 7; 2; 2; 1; 44; 2; 1; 5]).
Proof. split; [exact sig_encoded|]. repeat split; vm_compute; reflexivity. Qed.
