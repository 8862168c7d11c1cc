(** What sync-clocks reports. *)
From Coq Require Import ZArith List Bool.
From Verif Require Import Base.Outcome Model.Ts Model.PcrSynchronizer Spec.ScanSpec.
Import ListNotations.
Open Scope Z_scope.

(** What a stream consists of: tables, complete with the packet that brings their
    last byte, and PCRs.  Null packets bring nothing. *)
Inductive ev :=
| Tab (pid : Z) (b : body)
| Pcr (pid pcr : Z).
Definition events (p : packet) : list ev :=
  if p_pid p =? 0x1FFF then []
  else map (fun t => Tab (p_pid p) (tb_body t)) (p_tabs p 0) ++
       match p_pcr p with Some pcr => [Pcr (p_pid p) pcr] | None => [] end.
Definition trace (ps : list packet) : list ev := flat_map events ps.

(** SDTs come on PID 0x11, TOTs on PID 0x14, and no PMT is announced on the PIDs
    of these tables or of the PAT. *)
Definition proper (tr : list ev) : Prop :=
  forall pid b, In (Tab pid b) tr ->
    match b with
    | TPat (Some t) => forall sid q, In (sid, q) (pat_entries t) -> sid <> 0 -> q <> 0 /\ q <> 0x11 /\ q <> 0x14
    | TSdt (Some _) => pid = 0x11
    | TTot (Some _) => pid = 0x14
    | _ => True
    end.

(** The latest [v] such that [f e v]. *)
Definition latest {V} (f : ev -> V -> Prop) (tr : list ev) (v : V) : Prop :=
  exists a x b, tr = a ++ x :: b /\ f x v /\ forall y w, In y b -> ~ f y w.

Definition pat_at (e : ev) (t : pat) : Prop := e = Tab 0 (TPat (Some t)) /\ pat_tsid t <> 0.
Definition sdt_at (e : ev) (d : sdt) : Prop := e = Tab 0x11 (TSdt (Some d)).
Definition tot_at (e : ev) (x : Z) : Prop := e = Tab 0x14 (TTot (Some x)).
Definition pmt_at (q sid : Z) (e : ev) (m : pmt) : Prop := e = Tab q (TPmt (Some m)) /\ pmt_sid m = sid.

(** [t] is the latest PAT, and [post] is what came after it. *)
Definition since_pat (tr : list ev) (t : pat) (post : list ev) : Prop :=
  exists a x, tr = a ++ x :: post /\ pat_at x t /\ forall y u, In y post -> ~ pat_at y u.

(** The PAT lists service [sid] with its PMT on PID [q]. *)
Definition lists (t : pat) (sid q : Z) : Prop :=
  sid <> 0 /\ exists a b, pat_entries t = a ++ (sid, q) :: b /\ forall r, ~ In (sid, r) b.
Definition wanted (o : ps_option) (sid : Z) : Prop :=
  (pso_sids o = [] \/ In sid (pso_sids o)) /\ ~ In sid (pso_xsids o).
Definition av_service (o : ps_option) (t : pat) (d : sdt) (sid q : Z) : Prop :=
  lists t sid q /\ wanted o sid /\ exists v, in_sdt d sid v /\ audio_video (sv_type v).

(** The clock [c] is genuine: it is of a wanted service of the latest PAT, with
    the PCR PID of its latest PMT, the ids of the latest SDT, and a PCR received
    on that PID after a TOT. *)
Definition genuine (o : ps_option) (t : pat) (post : list ev) (c : clock_doc) : Prop :=
  exists q m d, lists t (cd_sid c) q /\ wanted o (cd_sid c) /\
    latest (pmt_at q (cd_sid c)) post m /\ pmt_pcr_pid m = cd_pid c /\
    latest sdt_at post d /\ sdt_onid d = cd_nid c /\ sdt_tsid d = cd_tsid c /\
    exists a b x, post = a ++ Pcr (cd_pid c) (cd_pcr c) :: b /\ In (Tab 0x14 (TTot (Some x))) a.

(** Milliseconds of the Unix epoch. *)
Definition unix (x : Z) : Z := x - 40587 * 86400000 - 9 * 3600000.

(** No two services of the PAT share a PMT PID. *)
Definition distinct_pids (t : pat) : Prop := forall sid sid' q, lists t sid q -> lists t sid' q -> sid = sid'.

(** [pid] is the PCR PID of some audio or video service that is wanted. *)
Definition names (o : ps_option) (t : pat) (d : sdt) (tr : list ev) (pid : Z) : Prop :=
  pid <> 0x1FFF /\ exists sid q m, av_service o t d sid q /\ In (Tab q (TPmt (Some m))) tr /\ pmt_sid m = sid /\
    pmt_pcr_pid m = pid.

Definition no_pat (tr : list ev) : Prop := forall e t, In e tr -> ~ pat_at e t.
Definition no_sdt (tr : list ev) : Prop := forall e d, In e tr -> ~ sdt_at e d.

(** Every PAT lists a wanted service. *)
Definition selecting (o : ps_option) (tr : list ev) : Prop :=
  forall t, In (Tab 0 (TPat (Some t))) tr -> exists sid q, lists t sid q /\ wanted o sid.

(** Times TSDuck delivers: from 1858 to the year 2400 or so. *)
Definition sane_tots (tr : list ev) : Prop := forall pid x, In (Tab pid (TTot (Some x))) tr -> 0 <= x < 2 ^ 44.

(** The PMTs of all audio and video services wanted are in [tr]. *)
Definition all_pmts (o : ps_option) (t : pat) (d : sdt) (tr : list ev) : Prop :=
  forall sid q, av_service o t d sid q -> exists m, In (Tab q (TPmt (Some m))) tr /\ pmt_sid m = sid.

(** A steady broadcast after the PAT [t]: no other PAT, the one SDT [d], and PMTs
    that keep the PCR PIDs of the services. *)
Definition steady_clocks (o : ps_option) (t : pat) (d : sdt) (post : list ev) : Prop :=
  no_pat post /\ (forall e u, In e post -> sdt_at e u -> u = d) /\
  forall sid q m m', av_service o t d sid q -> In (Tab q (TPmt (Some m))) post -> In (Tab q (TPmt (Some m'))) post ->
    pmt_sid m = sid -> pmt_sid m' = sid -> pmt_pcr_pid m = pmt_pcr_pid m'.

(** The first SDT, the PMTs of all services before a second SDT, a TOT, and then a
    PCR on each of the PCR PIDs, of which there is at least one. *)
Definition in_order (o : ps_option) (t : pat) (d : sdt) (post : list ev) : Prop :=
  exists a b c y e, post = a ++ Tab 0x11 (TSdt (Some d)) :: b ++ c ++ Tab 0x14 (TTot (Some y)) :: e /\
    no_sdt a /\ no_sdt b /\ all_pmts o t d b /\ (exists pid, names o t d b pid) /\
    forall pid, names o t d b pid -> exists v, In (Pcr pid v) e.
