(* Model of pickling: /repo/asn1crypto/core.py:493-497 Asn1Value.__reduce__ and 169-175
   unpickle_helper.  What pickle stores is the class and the octets of dump(); the class
   itself is stored by its name and comes back as it is. *)
Require Import Verif.Base Verif.PrimModel Verif.ContModel.

(* 493-497 __reduce__ *)
Definition reduce (s : spec) (v : value) : value * res bytes := x_dump (methods s) false v.
(* 169-175 unpickle_helper: asn1crypto_cls.load(der_bytes) *)
Definition unpickle (s : spec) (d : bytes) : res value := cload s no_params d false.
(* pickle.loads(pickle.dumps(v)) *)
Definition repickled (s : spec) (v : value) : res value := do d <- snd (reduce s v); unpickle s d.
