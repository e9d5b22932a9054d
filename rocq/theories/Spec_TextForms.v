(** Texts of GUIDs, versions and booleans (C75).  Nothing here parses. *)
From Verif Require Import Base Model_Scalars.
From Verif Require Import Spec_Numeral Spec_Duration.
Local Open Scope N_scope.

(** ** Versions *)
(** A part: 0, or digits of any script of which the first is an ASCII one other than 0. *)
Definition part_text (s : list N) (n : N) : Prop :=
  s = [0x30] /\ n = 0 \/ exists c t, s = c :: t /\ 0x31 <= c <= 0x39 /\ number s n.
(** Two to four parts with dots between them; one line feed may follow. *)
Definition dotted (part : list N -> N -> Prop) (s : list N) (v : version) : Prop :=
  exists a b x y, part a x /\ part b y
  /\ (s = a ++ [0x2E] ++ b /\ v = mkV x y None None
      \/ exists c z, part c z
         /\ (s = a ++ [0x2E] ++ b ++ [0x2E] ++ c /\ v = mkV x y (Some z) None
             \/ exists d w, part d w /\ s = a ++ [0x2E] ++ b ++ [0x2E] ++ c ++ [0x2E] ++ d /\ v = mkV x y (Some z) (Some w))).
Definition version_text (s : list N) (v : version) : Prop :=
  exists t tail, s = t ++ tail /\ (tail = [] \/ tail = [0x0A]) /\ dotted part_text t v.
(** What System.Version writes: ASCII digits without leading zeros, numbers of 31 bits. *)
Definition net_part (s : list N) (n : N) : Prop :=
  plain_numeral s n /\ n < 2 ^ 31 /\ (s = [0x30] \/ forall t, s <> 0x30 :: t).
Definition net_version : list N -> version -> Prop := dotted net_part.

(** ** GUIDs *)
(** All occurrences of the word are gone, from the left, and the rest has moved together. *)
Inductive gone (w : list N) : list N -> list N -> Prop :=
| gone_end : gone w [] []
| gone_word s r : gone w s r -> gone w (w ++ s) r
| gone_char c s r : (forall t, c :: s <> w ++ t) -> gone w s r -> gone w (c :: s) (c :: r).
Definition brace (c : N) : Prop := c = 0x7B \/ c = 0x7D.
(** What is between the braces at the ends, of which there may be any number of either kind. *)
Definition inside (s m : list N) : Prop :=
  exists a b, s = a ++ m ++ b /\ Forall brace a /\ Forall brace b
  /\ (forall c t, m = c :: t -> ~ brace c) /\ (forall t c, m = t ++ [c] -> ~ brace c).
(** A digit of base 16, the first ten in any script. *)
Definition hexa (c d : N) : Prop := digit c d \/ 10 <= d < 16 /\ (c = 0x41 + (d - 10) \/ c = 0x61 + (d - 10)).
Inductive hex_numeral : list N -> N -> Prop :=
| hex_one c d : hexa c d -> hex_numeral [c] d
| hex_next s n c d : hex_numeral s n -> hexa c d -> hex_numeral (s ++ [c]) (16 * n + d)
| hex_under s n c d : hex_numeral s n -> hexa c d -> hex_numeral (s ++ [0x5F; c]) (16 * n + d).
(** 0x or 0X, with an underscore or without; the zero may be that of any script. *)
Definition ox (s : list N) : Prop :=
  exists z x u, s = z :: x :: u /\ digit z 0 /\ (x = 0x78 \/ x = 0x58) /\ (u = [] \/ u = [0x5F]).
Definition hex_text (s : list N) (n : N) : Prop :=
  exists before sign prefix number after, s = before ++ sign ++ prefix ++ number ++ after /\ Forall blank before /\ Forall blank after
  /\ (sign = [] \/ sign = [0x2B]) /\ (prefix = [] \/ ox prefix) /\ hex_numeral number n.
(** What Python takes for the GUID with the number [n]: "urn:" and "uuid:" do not count, nor do braces at the ends and hyphens; what
    is left has 32 characters and is a number in base 16. *)
Definition guid_text (s : list N) (n : N) : Prop :=
  exists s1 s2 m h, gone [0x75; 0x72; 0x6E; 0x3A] s s1 /\ gone [0x75; 0x75; 0x69; 0x64; 0x3A] s1 s2 /\ inside s2 m
  /\ h = filter (fun c => negb (c =? 0x2D)) m /\ length h = 32%nat /\ hex_text h n.
(** What System.Guid writes, in either case: groups of 8, 4, 4, 4 and 12 digits with hyphens between them. *)
Inductive plain_hex : list N -> N -> Prop :=
| plain_hex_none : plain_hex [] 0
| plain_hex_next s n c d : plain_hex s n ->
    d < 10 /\ c = 0x30 + d \/ 10 <= d < 16 /\ (c = 0x41 + (d - 10) \/ c = 0x61 + (d - 10)) -> plain_hex (s ++ [c]) (16 * n + d).
Definition net_guid (s : list N) (n : N) : Prop :=
  exists a b c d e, s = a ++ [0x2D] ++ b ++ [0x2D] ++ c ++ [0x2D] ++ d ++ [0x2D] ++ e
  /\ length a = 8%nat /\ length b = 4%nat /\ length c = 4%nat /\ length d = 4%nat /\ length e = 12%nat
  /\ plain_hex (a ++ b ++ c ++ d ++ e) n.

(** ** Booleans *)
(** The letters of "true", each in either case. *)
Definition true_text (s : list N) : Prop :=
  exists t r u e, s = [t; r; u; e] /\ In t [0x74; 0x54] /\ In r [0x72; 0x52] /\ In u [0x75; 0x55] /\ In e [0x65; 0x45].
(** xs:boolean *)
Definition xs_boolean (s : list N) (b : bool) : Prop :=
  exists before word after, s = before ++ word ++ after /\ Forall xml_blank before /\ Forall xml_blank after
  /\ (b = true /\ (word = [0x74; 0x72; 0x75; 0x65] \/ word = [0x31])
      \/ b = false /\ (word = [0x66; 0x61; 0x6C; 0x73; 0x65] \/ word = [0x30])).
