(** * Properties of the helpers shared by all highlighters (C43, highlighting of numbers). *)
From Coq Require Import List NArith Bool Arith Lia.
From Verif Require Import M_Base M_Emit M_Types M_Chars M_Parse L_Parse M_Highlighter S_Highlight
  L_Highlighter.
Import ListNotations.

(** Highlighting a matched number, with or without a digit separator, consumes exactly its
    length, and the emitted spans are contiguous and cover exactly that text. *)
Theorem C43_highlight : forall (S : Type) (st : hst S) o r, good_options o ->
  match_common_number (rem st) o = Ok r -> 0 < nr_length r ->
  forall sep, sep <> 0%N ->
  forall m, In m [highlight_number r; highlight_number_sep r sep] ->
  exists st' ops, m st = Ok (tt, st')
    /\ rem st' = skipn (nr_length r) (rem st) /\ idx st' = idx st + nr_length r
    /\ loc st' = loc st
    /\ rops st' = rev ops ++ rops st /\ covers (idx st) (idx st + nr_length r) ops.
Proof.
  intros S st o r Ho Er Hr sep Hs m Hm.
  destruct (match_common_number_ok (rem st) o Ho) as (r' & E' & Hp & Hl).
  rewrite Er in E'. injection E' as <-.
  assert (W : wp m (fun _ st' => paints (nr_length r) st st') st).
  { destruct Hm as [<-|[<-|[]]].
    - apply paint_number; auto.
    - apply paint_number_sep; auto. }
  unfold wp in W. destruct (m st) as [[[] st']|]; [|contradiction].
  destruct W as (_ & H1 & H2 & H3 & new & H4 & H5). exists st', (rev new).
  rewrite rev_involutive. rewrite H2 in H5. repeat split; assumption.
Qed.
Print Assumptions C43_highlight.

Example C43_highlight_case : exists st,
  highlight_number_sep (mk_number 11 1 0 3 1 1 2 2 1 false) (ch "'")
    (mk_hst (bs "-1'0.5e+12f;") 7 [] tt) = Ok (tt, st)
  /\ rev (rops st) = [OEmit 7 1 hl_number_decor false; OEmit 8 1 hl_number false;
       OEmit 9 1 hl_number_delim false; OEmit 10 1 hl_number false; OEmit 11 1 hl_number_delim false;
       OEmit 12 1 hl_number false; OEmit 13 2 hl_number_delim false; OEmit 15 2 hl_number false;
       OEmit 17 1 hl_number_decor false].
Proof. eexists. vm_compute. split; reflexivity. Qed.
