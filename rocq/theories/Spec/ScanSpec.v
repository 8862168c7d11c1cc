(** What scan-services reports. *)
From Coq Require Import ZArith List Bool Sorted.
From Verif Require Import Base.Outcome Model.Ts Model.ServiceScanner.
Import ListNotations.
Open Scope Z_scope.

(** A PAT that counts: received on PID 0, valid, for a transport stream other
    than 0. *)
Definition good_pat (x : Z * body) (t : pat) : Prop := x = (0, TPat (Some t)) /\ pat_tsid t <> 0.
Definition good_sdt (x : Z * body) (t : sdt) : Prop := snd x = TSdt (Some t) /\ sdt_tsid t <> 0.
Definition good_nit (x : Z * body) (t : nit) : Prop := snd x = TNit (Some t).

(** The PAT gives the PID of the NIT, and it is not the usual one. *)
Definition moves_nit (t : pat) (pid : Z) : Prop :=
  (exists pre post, pat_entries t = pre ++ (0, pid) :: post /\ forall q, ~ In (0, q) post) /\
  pid <> 0x10 /\ pid <> 0x1FFF.

(** Having received the tables [ts], the scanner listens to PID [pid]. *)
Definition listens (ts : list (Z * body)) (pid : Z) : Prop :=
  pid = 0 \/ pid = 0x11 \/
  (pid = 0x10 /\ forall x t q, In x ts -> good_pat x t -> ~ moves_nit t q) \/
  (exists x t, In x ts /\ good_pat x t /\ moves_nit t pid).

(** The tables received from the packets [h], each with its PID. *)
Inductive heard : list packet -> list (Z * body) -> Prop :=
| heard_nil : heard [] []
| heard_yes : forall h ts p, heard h ts -> listens ts (p_pid p) ->
    heard (h ++ [p]) (ts ++ map (fun t => (p_pid p, tb_body t)) (p_tabs p 0))
| heard_no : forall h ts p, heard h ts -> ~ listens ts (p_pid p) -> heard (h ++ [p]) ts.

(** The latest PAT, the latest SDT, and the latest NIT since the PAT last moved
    the NIT. *)
Definition last_pat (ts : list (Z * body)) (t : pat) : Prop :=
  exists pre x post, ts = pre ++ x :: post /\ good_pat x t /\ forall y u, In y post -> ~ good_pat y u.
Definition last_sdt (ts : list (Z * body)) (t : sdt) : Prop :=
  exists pre x post, ts = pre ++ x :: post /\ good_sdt x t /\ forall y u, In y post -> ~ good_sdt y u.
Definition last_nit (ts : list (Z * body)) (t : nit) : Prop :=
  exists pre x post, ts = pre ++ x :: post /\ good_nit x t /\ (forall y u, In y post -> ~ good_nit y u) /\
    forall y u q, In y post -> good_pat y u -> ~ moves_nit u q.

(** The three tables are there. *)
Definition ready (h : list packet) (t : pat) (d : sdt) (n : nit) : Prop :=
  exists ts, heard h ts /\ last_pat ts t /\ last_sdt ts d /\ last_nit ts n.

(** The services to report. *)
Definition audio_video (kind : Z) : Prop :=
  kind = 0x01 \/ kind = 0x02 \/ kind = 0xA1 \/ kind = 0xA2 \/ kind = 0xA5 \/ kind = 0xA6 \/ kind = 0xAD.
Definition in_pat (t : pat) (sid : Z) : Prop := sid <> 0 /\ exists pid, In (sid, pid) (pat_entries t).
Definition in_sdt (d : sdt) (sid : Z) (v : service) : Prop :=
  exists pre post, sdt_entries d = pre ++ (sid, v) :: post /\ forall w, ~ In (sid, w) post.
Definition chosen (o : sc_option) (sid : Z) : Prop :=
  (sco_sids o = [] \/ In sid (sco_sids o)) /\ ~ In sid (sco_xsids o).
Definition logo_of (v : service) (logo : Z) : Prop :=
  (exists kind, sv_logo v = Some (kind, logo) /\ (kind = 1 \/ kind = 2)) \/
  logo = -1 /\ forall kind id, sv_logo v = Some (kind, id) -> kind <> 1 /\ kind <> 2.
Definition key_of (n : nit) (d : sdt) (key : option Z) : Prop :=
  let has ts k := In (sdt_tsid d, sdt_onid d, k) ts in
  (exists pre k post, nit_transports n = pre ++ (sdt_tsid d, sdt_onid d, Some k) :: post /\
     (forall k', ~ has pre k') /\ k <> 0 /\ key = Some k) \/
  key = None /\
    ((forall k, ~ has (nit_transports n) k) \/
     exists pre k post, nit_transports n = pre ++ (sdt_tsid d, sdt_onid d, k) :: post /\
       (forall k', ~ has pre k') /\ (k = None \/ k = Some 0)).

(** [x] describes a service to report. *)
Definition reported (o : sc_option) (t : pat) (d : sdt) (n : nit) (x : service_doc) : Prop :=
  exists v, in_pat t (sd_sid x) /\ in_sdt d (sd_sid x) v /\ audio_video (sv_type v) /\ chosen o (sd_sid x) /\
    sd_nid x = sdt_onid d /\ sd_tsid x = sdt_tsid d /\ sd_name x = sv_name v /\ sd_type x = sv_type v /\
    logo_of v (sd_logo x) /\ key_of n d (sd_key x).

(** In ascending order of service ids (so each at most once), exactly the
    services to report. *)
Definition service_list (o : sc_option) (t : pat) (d : sdt) (n : nit) (doc : list service_doc) : Prop :=
  StronglySorted (fun a b => sd_sid a < sd_sid b) doc /\ forall x, In x doc <-> reported o t d n x.

(** The PID of the NIT according to the PAT [t]. *)
Definition nit_on (t : pat) (pid : Z) : Prop := moves_nit t pid \/ (pid = 0x10 /\ forall q, ~ moves_nit t q).

(** A steady broadcast: every PAT, SDT and NIT, where the scanner may take it, is
    the same one; packets with other contents come in any number anywhere. *)
Definition steady_tables (t : pat) (d : sdt) (n : nit) (ps : list packet) : Prop :=
  pat_tsid t <> 0 /\ sdt_tsid d <> 0 /\ (forall pid, nit_on t pid -> pid <> 0) /\
  forall p tb, In p ps -> In tb (p_tabs p 0) ->
    (forall u, p_pid p = 0 -> tb_body tb = TPat (Some u) -> pat_tsid u <> 0 -> u = t) /\
    (forall u, p_pid p = 0 \/ p_pid p = 0x11 \/ nit_on t (p_pid p) \/ p_pid p = 0x10 -> tb_body tb = TSdt (Some u) -> sdt_tsid u <> 0 -> u = d) /\
    (forall u, p_pid p = 0 \/ p_pid p = 0x11 \/ nit_on t (p_pid p) -> tb_body tb = TNit (Some u) -> u = n).

(** Packet [p] carries the table [b]. *)
Definition carries (p : packet) (b : body) : Prop := exists tb, In tb (p_tabs p 0) /\ tb_body tb = b.

(** The PAT, then the SDT, then the NIT are broadcast, each in a packet of its PID. *)
Definition broadcast (t : pat) (d : sdt) (n : nit) (ps : list packet) : Prop :=
  exists a p b q c r e, ps = a ++ p :: b ++ q :: c ++ r :: e /\
    p_pid p = 0 /\ carries p (TPat (Some t)) /\ p_pid q = 0x11 /\ carries q (TSdt (Some d)) /\
    nit_on t (p_pid r) /\ carries r (TNit (Some n)).
