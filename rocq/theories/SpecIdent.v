(** * SpecIdent: what package and sequence identifiers look like *)
From Verif Require Import Base SpecCodec SpecArchive Ident.

(** Texts that denote a package: "name-version-release" and "name-epoch:version-release".  A release has no dash.
    Without an epoch there is no colon before the release and no dash in the version; with one, the last colon ends
    the epoch, which has no dash.  Names are not empty. *)
Inductive nevr_text : nevr_parts -> list Z -> Prop :=
| text_plain n v r : n <> [] -> ~ In 58 n -> ~ In 58 v -> ~ In 45 v -> ~ In 45 r ->
    nevr_text (mkparts n None v r) (n ++ [45] ++ v ++ [45] ++ r)
| text_epoch n e v r : n <> [] -> ~ In 45 e -> ~ In 58 v -> ~ In 45 r ->
    nevr_text (mkparts n (Some e) v r) (n ++ [45] ++ e ++ [58] ++ v ++ [45] ++ r).

(** Texts that denote a sequence for a package: "nevr-hexadecimal" with at least 16 bytes; a single character after the
    last pair of digits does not count. *)
Definition sequence_text (nevr seq text : list Z) : Prop :=
  exists hex, text = nevr ++ [45] ++ hex /\ nevr <> [] /\ ~ In 45 hex /\ hex_bytes (even_part hex) = Some seq /\ 16 <= zlen seq.
