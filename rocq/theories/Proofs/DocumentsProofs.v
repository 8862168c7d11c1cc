(** The documents have the members of the help texts. *)
From Coq Require Import Ascii String ZArith List Bool Lia.
From Verif Require Import Base.Outcome Base.Util Model.Ts Model.Pcr Model.Descriptors Model.EitSection Model.ServiceScanner
  Model.PcrSynchronizer Model.AirtimeTracker Model.MetadataFilter Model.ServiceRecorder Model.Logo Model.JsonText Model.Documents
  Spec.JsonSpec Spec.DocSpec Spec.DescriptorSpec Spec.DocumentsSpec Proofs.DescriptorProofs Proofs.JsonTextProofs Proofs.PcrProofs.
Import ListNotations.
Open Scope string_scope.
Open Scope Z_scope.

Section Decode.
Variable decode : list Z -> string.
Notation meaning := (meaning decode).

Lemma lines : forall A (R : A -> jvalue -> Prop) (f : A -> json) docs,
  Forall (fun d => R d (meaning (f d)) /\ unambiguous (meaning (f d))) docs -> lines_of R docs (jsonl decode (map f docs)).
Proof.
  intros A R f docs H. exists (map meaning (map f docs)). split; [apply jsonl_read|].
  split; induction H as [|d docs [Hd Ud] H IH]; cbn [map]; constructor; auto.
Qed.
Lemma all : forall A (P : A -> Prop), (forall x, P x) -> forall l, Forall P l.
Proof. intros A P H l. apply Forall_forall. auto. Qed.
Lemma every : forall A (R : A -> jvalue -> Prop) (f : A -> json) l, (forall x, R x (meaning (f x))) -> array_of R l (VArr (map meaning (map f l))).
Proof. intros A R f l H. eexists. split; [reflexivity|]. induction l; cbn [map]; constructor; auto. Qed.

(** ** No member twice *)
Fixpoint plain (l : list string) : bool := match l with [] => true | k :: r => negb (existsb (String.eqb k) r) && plain r end.
Lemma plain_nodup : forall l, plain l = true -> NoDup l.
Proof.
  induction l as [|k l IH]; intros H; constructor; cbn in H; apply andb_prop in H as [H1 H2]; [|auto].
  intros I. apply negb_true_iff in H1. assert (existsb (String.eqb k) l = true); [|congruence].
  apply existsb_exists. exists k. split; [exact I|apply String.eqb_refl].
Qed.
Lemma once_obj : forall l, plain (map fst l) = true -> Forall (fun m => unambiguous (meaning (snd m))) l -> unambiguous (meaning (JObject l)).
Proof.
  intros l P F. cbn [DocSpec.meaning]. constructor.
  - rewrite map_map. cbn [fst]. apply plain_nodup. exact P.
  - clear P. induction F as [|m l Hm F IH]; cbn [map]; constructor; [exact Hm|exact IH].
Qed.
Lemma once_arr : forall l, Forall (fun j => unambiguous (meaning j)) l -> unambiguous (meaning (JArray l)).
Proof. intros l F. cbn [DocSpec.meaning]. constructor. induction F; cbn [map]; constructor; auto. Qed.
Lemma once_arr_map : forall A (f : A -> json) l, (forall x, unambiguous (meaning (f x))) -> unambiguous (meaning (JArray (map f l))).
Proof. intros A f l H. apply once_arr. induction l; cbn [map]; constructor; auto. Qed.
Ltac onces := repeat first
  [ apply U_null | apply U_bool | apply U_num | apply U_str
  | apply once_arr_map; intros | apply once_obj; [reflexivity|] | apply once_arr | apply Forall_nil | apply Forall_cons; cbn [snd] ].

Lemma once_short : forall d, unambiguous (meaning (short_json d)).
Proof. intros [[] []]; unfold short_json; cbn [member_text sh_name sh_text app]; onces. Qed.
Lemma once_component : forall d, unambiguous (meaning (component_json d)).
Proof. intros [a b c d []]; unfold component_json; cbn [member_text cm_text app]; onces. Qed.
Lemma once_content : forall d, unambiguous (meaning (content_json d)).
Proof. intros d. unfold content_json. onces. destruct x as [[[a b] c] e]. onces. Qed.
Lemma once_audio : forall d, unambiguous (meaning (audio_json d)).
Proof. intros [a b c d [] f g h i j []]; unfold audio_json; cbn [member_text au_text au_multi app]; onces. Qed.
Lemma once_series : forall d, unambiguous (meaning (series_json d)).
Proof. intros [a b c [] e f []]; unfold series_json; cbn [member_text se_expire se_name app]; onces. Qed.
Lemma once_group : forall d, unambiguous (meaning (event_group_json d)).
Proof. intros [t l]. unfold event_group_json. onces. unfold group_event_json. destruct (_ || _); cbn [app]; onces. Qed.
Lemma once_extended : forall d, unambiguous (meaning (extended_json d)).
Proof. intros d. unfold extended_json. onces. Qed.
Lemma once_push : forall A (p : list Z -> option A) f m, (forall d, unambiguous (meaning (f d))) -> Forall (fun j => unambiguous (meaning j)) (push p f m).
Proof. intros A p f m H. unfold push. destruct (p m); constructor; auto. Qed.
Lemma once_switch : forall pr t m, Forall (fun j => unambiguous (meaning j)) (switch_json pr t m).
Proof.
  intros pr t m. unfold switch_json.
  repeat (destruct (t =? _); [apply once_push; auto using once_short, once_component, once_content, once_audio, once_series, once_group|]). constructor.
Qed.
Lemma once_flat : forall A (f : A -> list json) l, (forall x, Forall (fun j => unambiguous (meaning j)) (f x)) ->
  Forall (fun j => unambiguous (meaning j)) (flat_map f l).
Proof. intros A f l H. induction l; cbn [flat_map]; [constructor|]. apply Forall_app. auto. Qed.
Lemma once_descriptors : forall pr ds, Forall (fun j => unambiguous (meaning j)) (DescriptorsJson pr ds).
Proof. intros. apply once_flat. intros d. destruct (ds_isValid d); [apply once_switch|constructor]. Qed.
Lemma once_eit_descriptors : forall pr m e, Forall (fun j => unambiguous (meaning j)) (EitDescriptorsJson pr m e).
Proof.
  intros. apply Forall_app. split; [apply once_flat; intros; apply once_switch|].
  destruct e; constructor; [apply once_extended|constructor].
Qed.

(** ** Document by document *)
Ltac shape := first [eexists; split; reflexivity | reflexivity].

Lemma service_ok : forall name d, service_object name d (meaning (service_json name d)) /\ unambiguous (meaning (service_json name d)).
Proof.
  intros name [a b c d e f k]. unfold service_json. cbn [sd_key sd_nid sd_tsid sd_sid sd_name sd_type sd_logo]. split.
  - unfold service_object. destruct k; cbn [sd_key app]; repeat split; shape.
  - destruct k; cbn [app]; onces.
Qed.
Lemma clock_ok : forall d, clock_object d (meaning (clock_json d)) /\ unambiguous (meaning (clock_json d)).
Proof.
  intros d. split; [|unfold clock_json; onces].
  split; [shape|]. split; [shape|]. split; [shape|]. split; [shape|]. eexists. split; [reflexivity|]. repeat split; shape.
Qed.
Lemma airtime_ok : forall d, airtime_object d (meaning (airtime_json d)) /\ unambiguous (meaning (airtime_json d)).
Proof. intros d. split; [repeat split; shape|unfold airtime_json; onces]. Qed.

Section Events.
Variable parts : Z -> bool * list descriptor.
Variable pr : parsers.
Variable block : list Z -> list (list Z) * option (list (list Z * list Z)).

Lemma meta_event_ok : forall e, meta_event_object decode parts pr e (meaning (meta_event_json parts pr e)) /\
  unambiguous (meaning (meta_event_json parts pr e)).
Proof.
  intros e. unfold meta_event_object, meta_event_json. destruct (parts (md_data e)) as [s ds]. cbn [fst snd]. split.
  - split; [shape|]. split; [shape|]. split; [shape|]. split; [shape|]. split; [shape|]. eexists. split; [reflexivity|].
    exists (DescriptorsJson pr ds). split; [apply descriptors_json|reflexivity].
  - onces. apply once_descriptors.
Qed.
Lemma meta_ok : forall d, meta_object decode parts pr d (meaning (meta_json parts pr d)) /\ unambiguous (meaning (meta_json parts pr d)).
Proof.
  intros d. split.
  - split; [shape|]. split; [shape|]. split; [shape|]. split; [shape|]. eexists. split; [reflexivity|]. apply every. intros; apply meta_event_ok.
  - unfold meta_json. onces. apply meta_event_ok.
Qed.
Lemma eit_event_ok : forall e, eit_event_object decode pr block e (meaning (event_json pr block e)) /\ unambiguous (meaning (event_json pr block e)).
Proof.
  intros e. unfold eit_event_object, full_descriptors, event_json. destruct (block (ev_descs e)) as [ms ext]. cbn [fst snd]. split.
  - split; [shape|]. split; [shape|]. split; [destruct (EitSection.ev_start e); shape|]. split; [destruct (EitSection.ev_duration e); shape|].
    split; [shape|]. eexists. split; [reflexivity|].
    destruct (eit_descriptors_json pr ms ext) as (js & more & E & D & M). exists js, more. split; [exact D|]. split; [exact M|].
    unfold objects. rewrite <- E. reflexivity.
  - onces; [destruct (EitSection.ev_start e); constructor|destruct (EitSection.ev_duration e); constructor|apply once_eit_descriptors].
Qed.
Lemma eit_ok : forall d, eit_object decode pr block d (meaning (eit_json pr block d)) /\ unambiguous (meaning (eit_json pr block d)).
Proof.
  intros d. split.
  - do 9 (split; [shape|]). eexists. split; [reflexivity|]. apply every. intros; apply eit_event_ok.
  - unfold eit_json. onces. apply eit_event_ok.
Qed.

Lemma u64_id : forall n, 0 <= n < 2 ^ 64 -> u64 n = n.
Proof. intros n H. unfold u64. apply Z.mod_small. exact H. Qed.

Lemma message_ok : forall m, placed m -> timely m -> exists j, message_json parts pr m = Ok j /\
  message_object decode parts pr "stop" m (meaning j) /\ unambiguous (meaning j).
Proof.
  intros [|r|t p|k a b c e t p] P T; cbn [message_json].
  - eexists. split; [reflexivity|]. split; [repeat split; shape|onces].
  - eexists. split; [reflexivity|]. split; [|onces]. split; [shape|]. split; [shape|]. eexists. split; [reflexivity|]. split; shape.
  - eexists. split; [reflexivity|]. cbn [placed] in P. unfold place_json. rewrite u64_id by exact P. split; [|onces].
    split; [shape|]. split; [shape|]. eexists. eexists. split; [reflexivity|]. split; [shape|]. split; [reflexivity|]. repeat split; shape.
  - cbn [placed timely] in P, T.
    assert (E : MakeEventJson e = Ok (mkMetaEvent (Ts.ev_id e) (unix_ms (Ts.ev_start e)) (Ts.ev_duration e * 1000) (ev_data e))).
    { unfold MakeEventJson, ConvertJstTimeToUnixTime, unix_ms, UnixEpoch, kJstTzOffset, MilliSecPerHour, MilliSecPerSec.
      rewrite !i64_ok; cbn [bind]; try rewrite !i64_ok; cbn [bind]; try (unfold int64_min, int64_max; lia); try reflexivity. }
    rewrite E. cbn [bind]. eexists. split; [reflexivity|]. unfold place_json. rewrite u64_id by exact P.
    destruct (meta_event_ok (mkMetaEvent (Ts.ev_id e) (unix_ms (Ts.ev_start e)) (Ts.ev_duration e * 1000) (ev_data e))) as [M U]. split.
    + split; [shape|]. split; [destruct k; shape|]. eexists. eexists. eexists. split; [reflexivity|]. do 4 (split; [shape|]).
      split; [reflexivity|]. split; [exact M|]. split; [reflexivity|]. repeat split; shape.
    + onces. exact U.
Qed.
Lemma messages_ok : forall ms, Forall placed ms -> Forall timely ms -> exists js, messages_json parts pr ms = Ok js /\
  Forall2 (message_object decode parts pr "stop") ms (map meaning js) /\ Forall unambiguous (map meaning js).
Proof.
  induction ms as [|m ms IH]; intros P T.
  - exists []. repeat split; constructor.
  - inversion_clear P as [|? ? Pm Pl]. inversion_clear T as [|? ? Tm Tl]. destruct (message_ok m Pm Tm) as (j & E & O & U).
    destruct (IH Pl Tl) as (js & E2 & O2 & U2). exists (j :: js). cbn [messages_json]. rewrite E, E2. cbn [bind map].
    split; [reflexivity|]. split; constructor; auto.
Qed.
Lemma messages_no_end : forall ms js vs, messages_json parts pr ms = Ok js -> read_jsonl (jsonl decode js) = Some vs -> Forall (fun v => ~ typed "end" v) vs.
Proof.
  intros ms js vs E R. rewrite jsonl_read in R. injection R as <-. revert js E.
  induction ms as [|m ms IH]; intros js E; cbn [messages_json] in E; [injection E as <-; constructor|].
  apply bind_ok in E as (j & Ej & E). apply bind_ok in E as (r & Er & E). injection E as <-. cbn [map]. constructor; [|auto].
  destruct m as [|b|t p|k a b c e t p]; cbn [message_json] in Ej; [| | |apply bind_ok in Ej as (v & _ & Ej)]; injection Ej as <-; try discriminate.
  unfold typed. destruct k; discriminate.
Qed.
End Events.

Lemma latin_spells : forall bs, Forall (fun b => 0 <= b < 256) bs -> spells bs (latin bs).
Proof.
  unfold spells. induction 1 as [|b bs B F IH]; cbn; [reflexivity|]. f_equal; [|exact IH].
  rewrite nat_ascii_embedding by lia. lia.
Qed.
Lemma logo_ok : forall d, Forall (fun b => 0 <= b < 256) (ld_data d) -> logo_object d (meaning (logo_json d)) /\ unambiguous (meaning (logo_json d)).
Proof.
  intros [t i v dt n sv] B. cbn [ld_data] in B. unfold logo_json, logo_object.
  cbn [ld_type ld_id ld_version ld_data ld_nid ld_services]. destruct sv as [sv|]; cbn [app]; split.
  - do 5 (split; [shape|]). split; [eexists; split; [reflexivity|apply latin_spells; exact B]|]. eexists. split; [reflexivity|].
    apply every. intros [[a b] c]. repeat split; shape.
  - onces. destruct x as [[a b] c]. onces.
  - do 5 (split; [shape|]). split; [eexists; split; [reflexivity|apply latin_spells; exact B]|]. reflexivity.
  - onces.
Qed.
End Decode.
