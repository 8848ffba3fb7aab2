(* The HTTP helper against the meaning of libcurl's options (C75). *)
From Coq Require Import Lia.
From Verif Require Import Base Bytes Containers SpecText Handler SpecOut Notifier SpecHttp Curl SpecCurl TextFacts HexFacts NotifierFacts.
Local Open Scope string_scope.
Local Open Scope list_scope.

Lemma written_all pieces : forall str, Forall whole_piece pieces -> written pieces str = (str ++ String.concat "" (map (fun p => fst (fst p)) pieces))%string.
Proof.
  induction pieces as [|((ptr, size), nmemb) pieces IH]; intros str H; cbn [written map fst]; [rewrite append_nil_r; reflexivity|].
  inversion H as [|? ? H1 H2]; subst. cbn [whole_piece] in H1. unfold string_write_wrapper. cbn [fst]. rewrite <- H1, substring_all, IH by exact H2.
  destruct pieces as [|q pieces]; cbn [map String.concat]; rewrite !append_assoc_s; rewrite ?append_nil_r; reflexivity.
Qed.

Lemma creds_test u p : (negb (Nat.eqb (String.length u) 0) || negb (Nat.eqb (String.length p) 0))%bool = negb (String.eqb (u ++ p) "").
Proof. destruct u; [destruct p|]; reflexivity. Qed.

Ltac made := repeat (apply tf_init || apply tf_set || apply tf_perform || apply tf_code || apply tf_cleanup || apply tf_end).

Theorem get_made url port params u p pieces error : Forall whole_piece pieces ->
  let '(calls, r) := http_get url port params u p (Served pieces error) in
  transfers None calls [Terms (Some (c_str (url ++ "?" ++ query_text params))) port None true true true true true true (credentials u p)] /\
  r = answer "GET" (url ++ "?" ++ query_text params) pieces error.
Proof.
  intros HW. unfold http_get, conclude, answer, common_settings, credentials. rewrite creds_test, query_spec, written_all by exact HW.
  split; [|reflexivity]. destruct (String.eqb (u ++ p) ""); cbn [negb app map]; destruct error; made.
Qed.
Theorem post_made url port params u p pieces error : Forall whole_piece pieces ->
  let '(calls, r) := http_post url port params u p (Served pieces error) in
  transfers None calls [Terms (Some (c_str url)) port (Some (c_str (query_text params))) true true true true true true (credentials u p)] /\
  r = answer "POST" (url ++ "?" ++ query_text params) pieces error.
Proof.
  intros HW. unfold http_post, conclude, answer, common_settings, credentials. rewrite creds_test, query_spec, written_all by exact HW.
  split; [|reflexivity]. destruct (String.eqb (u ++ p) ""); cbn [negb app map]; destruct error; made.
Qed.
Theorem made_fun h calls ts1 : transfers h calls ts1 -> forall ts2, transfers h calls ts2 -> ts1 = ts2.
Proof. induction 1; intros ts2 H2; inversion H2; subst; auto. f_equal. auto. Qed.

Lemma c_str_whole s : no_char "000" s -> c_str s = s.
Proof.
  induction s as [|a s IH]; intros H; [reflexivity|]. apply no_char_cons in H. destruct H as (Ha & H). cbn [c_str].
  destruct (Ascii.eqb_spec a "000"); [contradiction|]. rewrite (IH H). reflexivity.
Qed.

Theorem login_kept u p : no_char "000" u -> no_char "000" p -> (login_of (c_str (u ++ ":" ++ p)) u p <-> no_char ":" u).
Proof.
  intros Hu Hp. rewrite c_str_whole by (apply no_char_app; split; [exact Hu|]; apply no_char_cons; split; [discriminate|exact Hp]). split.
  - intros H. inversion H as [a b N E1 E2 E3|a N E1 E2 E3]; [exact N|]. exfalso. clear - E2. apply (f_equal String.length) in E2. rewrite !length_append in E2. cbn in E2. lia.
  - intros H. apply lg_both. exact H.
Qed.
Theorem login_fun t u1 p1 u2 p2 : login_of t u1 p1 -> login_of t u2 p2 -> u1 = u2 /\ p1 = p2.
Proof.
  intros H1 H2. destruct H1 as [u p N|u N]; inversion H2 as [u' p' N' E|u' N' E]; subst.
  - destruct (no_char_split _ _ _ _ _ N' N E) as (-> & ->). auto.
  - exfalso. exact (N' u p eq_refl).
  - exfalso. exact (N u2 p2 eq_refl).
  - auto.
Qed.

(* what the notifier's model says of a POST is what is seen of these calls *)
Definition outcome_of (out : served) : curl_outcome := match out with NoCurl => NoHandle | Served _ error => Performed error end.
Theorem post_seen url port params u p out : 
  let '(calls, r) := http_post url (Z.of_N port) params u p out in
  snd (curl_post url port params u p (outcome_of out)) = (match r with inl what => Some what | inr _ => None end) /\
  match out with
  | NoCurl => fst (curl_post url port params u p (outcome_of out)) = []
  | Served _ _ => exists t url' body, transfers None calls [t] /\ t_url t = Some url' /\ t_body t = Some body /\ t_port t = Z.of_N port /\
      fst (curl_post url port params u p (outcome_of out)) = [Post (mkPost url' port body (t_login t))]
  end.
Proof.
  unfold http_post, conclude. destruct out as [|pieces error]; [split; reflexivity|]. cbn [outcome_of curl_post fst snd]. split; [destruct error as [(c, t)|]; reflexivity|].
  unfold common_settings. rewrite creds_test.
  assert (E : (Nat.ltb 0 (String.length u) || Nat.ltb 0 (String.length p))%bool = negb (String.eqb (u ++ p) "")) by (destruct u; [destruct p|]; reflexivity). rewrite E.
  destruct (String.eqb (u ++ p) ""); cbn [negb app map]; (eexists _, _, _; split; [destruct error; made|repeat split; reflexivity]).
Qed.
