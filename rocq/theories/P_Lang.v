(** * Properties C01-C04: language lookup. *)
From Coq Require Import List NArith Bool Arith.
From Verif Require Import M_Base M_Lang L_Lang.
Import ListNotations.

(** C01. A name maps to a language exactly when the pair is in the published list. *)
Theorem C01_get_lang_exact : forall (name : str) (v : N), v <> LANG_NONE ->
  (get_lang name = v <-> In (name, v) lang_list).
Proof. exact get_lang_exact. Qed.
Print Assumptions C01_get_lang_exact.

(** C01. Every name which is not in the list maps to NONE. *)
Theorem C01_get_lang_unlisted : forall (name : str),
  (forall v, ~ In (name, v) lang_list) -> get_lang name = LANG_NONE.
Proof. exact get_lang_notin. Qed.
Print Assumptions C01_get_lang_unlisted.

Example C01_case : get_lang (bs "xhtml") = LANG_XML /\ get_lang (bs "xhtm") = LANG_NONE
  /\ get_lang (bs "C") = LANG_NONE /\ get_lang [] = LANG_NONE.
Proof. vm_compute. repeat split. Qed.

(** C02. No dot: NONE. Otherwise: lookup of what follows the last dot. *)
Theorem C02_path_without_dot : forall path, ~ In (ch ".") path -> lang_from_path path = LANG_NONE.
Proof. exact lang_from_path_nodot. Qed.
Print Assumptions C02_path_without_dot.

Theorem C02_path_last_extension : forall stem ext, ~ In (ch ".") ext ->
  lang_from_path (stem ++ ch "." :: ext) = get_lang ext.
Proof. exact lang_from_path_dot. Qed.
Print Assumptions C02_path_last_extension.

Example C02_case : lang_from_path (bs "a.tar/main.min.js") = LANG_JAVASCRIPT
  /\ lang_from_path (bs "js") = LANG_NONE /\ lang_from_path (bs "main.js.") = LANG_NONE.
Proof. vm_compute. repeat split. Qed.

(** C03. The full statement, "forall path, lang_from_path_u8 path = lang_from_path path",
    is false of the code: the u8 overload looks up the whole path as a language name. *)
Theorem C03_path_u8_agrees_refuted :
  exists path, lang_from_path path = LANG_CPP /\ lang_from_path_u8 path = LANG_NONE.
Proof. exists (bs "main.cpp"). vm_compute. split; reflexivity. Qed.
Print Assumptions C03_path_u8_agrees_refuted.

(** The overload fails on every path that has an extension naming a language. *)
Theorem C03_path_u8_never_detects : forall stem ext, ~ In (ch ".") ext ->
  lang_from_path_u8 (stem ++ ch "." :: ext) = LANG_NONE.
Proof. exact path_u8_never. Qed.
Print Assumptions C03_path_u8_never_detects.

(** C04. *)
Theorem C04_display_name_total : forall l : N, exists d,
  lang_display_name l = Some d /\ (d <> [] <-> (1 <= l < LANG_COUNT)%N).
Proof. exact display_name_ok. Qed.
Print Assumptions C04_display_name_total.

Example C04_case : lang_display_name LANG_CPP = Some (bs "C++")
  /\ lang_display_name LANG_COUNT = Some [] /\ lang_display_name 4000000000 = Some [].
Proof. vm_compute. repeat split. Qed.
