(** * Links read from a file object *)
From Verif Require Import Lemmas Codec LnkFile Report Call.
From Verif Require Import Spec SpecItems SpecInfo SpecExtra SpecLink SpecCall.
From Verif Require Import CoreProofs ClassProofs LinkProofs.

Lemma handle_as_bytes b cp allow : b <> [] -> lnk_init (FromHandle b) cp allow = lnk_init (FromBytes b) cp allow.
Proof. now destruct b. Qed.
Lemma call_handle c p indata cp allow : p < lenN c ->
  lnk_call (Some (Handle c p)) indata cp allow = (lnk_init (FromBytes (dropN p c)) cp allow, Some (Handle c (lenN c))).
Proof.
  intros H. unfold lnk_call, read. cbn [position content]. rewrite handle_as_bytes.
  - now rewrite N.max_r by lia.
  - intros E. apply (f_equal lenN) in E. rewrite lenN_dropN in E. cbn [lenN length] in E. unfold lenN in E at 2. cbn in E. lia.
Qed.
Lemma dropN_beyond {A} p (c : list A) : lenN c <= p -> dropN p c = [].
Proof. intros H. destruct (dropN p c) eqn:E; [reflexivity|]. apply (f_equal lenN) in E. rewrite lenN_dropN in E. unfold lenN in *. cbn [length] in E. lia. Qed.
Lemma call_exhausted c p indata cp allow : lenN c <= p ->
  lnk_call (Some (Handle c p)) indata cp allow = (([], Err LnkParserError), Some (Handle c p)).
Proof.
  intros H. unfold lnk_call, read. cbn [position content]. rewrite dropN_beyond by exact H. rewrite N.max_l by exact H. now rewrite handle_empty.
Qed.
Lemma call_left h h' indata cp allow : snd (lnk_call (Some h) indata cp allow) = Some h' -> content h' = content h /\ lenN (content h) <= position h'.
Proof. destruct h as [c p]. cbn. intros [= <-]. cbn. split; [reflexivity|lia]. Qed.
Lemma call_again h h' indata cp allow indata' cp' allow' :
  snd (lnk_call (Some h) indata cp allow) = Some h' -> fst (lnk_call (Some h') indata' cp' allow') = ([], Err LnkParserError).
Proof. intros H. apply call_left in H as (E & L). destruct h' as [c p]. cbn [content position] in *. subst. now rewrite call_exhausted. Qed.
Lemma call_nothing cp allow : lnk_call None None cp allow = (([], Err AttributeError), None) /\ lnk_call None (Some []) cp allow = (([], Err AttributeError), None).
Proof. split; reflexivity. Qed.

Lemma links_of_a_file cp gap ks before t :
  usable cp -> Forall (fun sk => lenN (fst sk) = gap /\ wf_link (snd sk)) ks ->
  let rows := flat_map (fun sk => fst sk ++ encode_link (snd sk)) ks in
  snd (links_at (length ks) gap cp (Handle (before ++ rows ++ t) (lenN before)))
  = Ok (map (fun sk => link_report cp false (snd sk) []) ks, Handle (before ++ rows ++ t) (lenN (before ++ rows))).
Proof.
  intros Hcp H. revert before. induction H as [|[sep k] ks [Hs Hk] _ IH]; intros before rows.
  - unfold rows. cbn. now rewrite app_nil_r.
  - cbn [fst snd] in *. unfold rows. cbn [length links_at flat_map fst snd map position].
    set (r := flat_map _ ks) in *.
    replace (before ++ (((sep ++ encode_link k) ++ r) ++ t)) with ((before ++ sep) ++ (encode_link k ++ (r ++ t))) by now rewrite <- !app_assoc.
    destruct (link_exact cp false k (r ++ t) Hcp Hk) as (l & HI & HZ & HJ).
    unfold total_size in HZ. rewrite N.add_0_r in HZ.
    assert (P : lenN (before ++ sep) = lenN before + gap) by (rewrite lenN_app; lia).
    rewrite <- P. unfold seek at 1. cbn [content].
    assert (Q : lenN (before ++ sep) < lenN ((before ++ sep) ++ encode_link k ++ r ++ t)).
    { rewrite (lenN_app (before ++ sep)). destruct (encode_link k ++ r ++ t); [discriminate HI|]. unfold lenN at 3. cbn [length]. lia. }
    rewrite call_handle by exact Q. rewrite dropN_app_exact by reflexivity.
    rewrite HI, bind_Ok. cbn [snd]. rewrite HJ, bind_Ok. cbn [snd]. unfold seek. cbn [content].
    replace (lenN (before ++ sep) + l_size l) with (lenN (((before ++ sep) ++ encode_link k))) by (rewrite lenN_app; lia).
    replace ((before ++ sep) ++ encode_link k ++ r ++ t) with (((before ++ sep) ++ encode_link k) ++ r ++ t) by now rewrite <- !app_assoc.
    specialize (IH ((before ++ sep) ++ encode_link k)). cbv zeta in IH. fold r in IH.
    destruct (links_at (length ks) gap cp _) as [w o]. cbn [snd] in IH. rewrite IH. cbn [bind ret snd fst].
    now rewrite <- !app_assoc.
Qed.
