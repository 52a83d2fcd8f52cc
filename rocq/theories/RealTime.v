(** ucan/src/time.rs over instants: [SystemTime::now().duration_since(UNIX_EPOCH).unwrap().as_secs()], and the places that call it.
    An instant is a number of nanoseconds since 1970, negative before.  The rest of the model starts from readings in seconds. *)
From Verif Require Import Prelude Value Cid Ext Json Key Ucan Store Builder.

(** [time::now], time.rs:3-8; [None]: [unwrap] aborts, the clock is before 1970.  (In browsers crate `instant` counts milliseconds.) *)
Definition read_clock (t : Z) : option N :=
  if (t <? 0)%Z then None else Some (Z.to_N (t / 1000000000)).

(** [is_expired], ucan.rs:103-109, if the next reading happens at [t] *)
Definition real_expired (t : Z) (u : ucan) (now_time : option N) : option bool :=
  match p_exp (u_payload u) with
  | Some exp =>
      let?? s := match now_time with Some s => Some s | None => read_clock t end in
      Some (exp <? s)%N
  | None => Some false
  end.

(** [is_too_early], ucan.rs:121-126 *)
Definition real_too_early (t : Z) (u : ucan) : option bool :=
  match p_nbf (u_payload u) with
  | Some nbf => let?? s := read_clock t in Some (s <? nbf)%N
  | None => Some false
  end.

(** [validate], ucan.rs:69-83, with the instants of the readings; [None]: aborted reading the clock. *)
Definition real_validate (clock : nat -> Z) (u : ucan) (now_time : option N) (st : vstate) : option (res unit) :=
  let n := v_ticks st in
  let?? expired := real_expired (clock n) u now_time in
  if (expired : bool) then Some (Err EExpired)
  else
    let next := match p_exp (u_payload u), now_time with Some _, None => S n | _, _ => n end in
    let?? early := real_too_early (clock next) u in
    if (early : bool) then Some (Err ETooEarly)
    else Some (fst (check_signature u st)).

(** [build], builder.rs:284-309: the clock is read if issuer and audience are set, and only for a lifetime without expiration. *)
Definition real_build (X : ext) (t : Z) (b : builder) : option (res signable) :=
  match b_issuer b, b_audience b, b_expiration b, b_lifetime b with
  | Some _, Some _, None, Some _ => let?? s := read_clock t in Some (build X s b)
  | _, _, _, _ => Some (build X 0 b)
  end.
