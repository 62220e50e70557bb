(** UTF-8 as the Unicode standard defines it (section 3.9, table 3-6); independent of the model, which has no decoder. *)
Require Import Coq.Strings.String Coq.Strings.Ascii Coq.NArith.NArith Coq.Lists.List.
Import ListNotations.
Local Open Scope N_scope.

(** Unicode scalar values: code points that are not surrogates. *)
Definition scalar (n : N) : Prop := n < 0xD800 \/ 0xE000 <= n < 0x110000.

(** The bytes of a scalar value, with the six low bits of each further byte in its low bits. *)
Definition encode1 (n : N) : list N :=
  if n <? 0x80 then [n]
  else if n <? 0x800 then [0xC0 + n / 64; 0x80 + n mod 64]
  else if n <? 0x10000 then [0xE0 + n / 4096; 0x80 + n / 64 mod 64; 0x80 + n mod 64]
  else [0xF0 + n / 262144; 0x80 + n / 4096 mod 64; 0x80 + n / 64 mod 64; 0x80 + n mod 64].

Definition bytes (s : string) : list N := map N_of_ascii (list_ascii_of_string s).

(** The bytes [s] are the text [cs]. *)
Definition is_text (s : string) (cs : list N) : Prop := Forall scalar cs /\ bytes s = flat_map encode1 cs.
