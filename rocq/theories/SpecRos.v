(** * Specification vocabulary for the ROS variant of generated tests *)
From Verif Require Export SpecCpp.

(** All nodes and events of a tree. *)
Fixpoint all_nodes (n : node) : list node :=
  match n with Node _ _ _ _ next => n :: concat (map all_nodes next) end.
Definition all_events (T : node) : list event := omap n_event (all_nodes T).
Definition has_input (T : node) : bool := existsb (fun e => bool_decide (ch_kind (e_chan e) = KIn)) (all_events T).

(** What each message means to the tester.  Differences from the interactive session: an
    acknowledgement that is not expected is an internal error (tests without inputs do not
    listen to acknowledgements at all). *)
Definition ros_obs_step (T : node) (o : obs) (ev : ros_event) : obs :=
  match o_end o with
  | Some _ => o
  | None =>
    match ev with
    | RTimeout => Obs (o_at o) (Some TIMEOUT)
    | RDelay => match o_at o with None => arrive T [] | Some _ => o end
    | RAccept =>
      if has_input T then
        match o_at o with
        | None => o
        | Some p => match node_at T p ≫= next_input with
                    | Some i => arrive T (p ++ [i])
                    | None => Obs (Some p) (Some BUG)
                    end
        end
      else o
    | ROut w v =>
      if decide (w ∈ out_names T) then
        match o_at o with
        | None => Obs None (Some OFF_SCRIPT)
        | Some p => match node_at T p with
                    | None => o
                    | Some n => match next_output n w v with
                                | Some i => arrive T (p ++ [i])
                                | None => Obs (Some p) (Some OFF_SCRIPT)
                                end
                    end
        end
      else o
    end
  end.
Definition ros_obs_run (T : node) (evs : list ros_event) : obs := fold_left (ros_obs_step T) evs (obs_start T).

(** No acknowledgement arrives while the test is waiting to start. *)
Definition no_early_ack (T : node) (evs : list ros_event) : Prop :=
  forall l1 l2, evs = l1 ++ RAccept :: l2 -> obs_status T (ros_obs_run T l1) <> WAIT_START.

(** The interactive session with the same events. *)
Definition ros_word (ev : ros_event) : gostr * valuable :=
  match ev with
  | RTimeout => (lit "timeout", EnumV [])
  | RDelay => (lit "ready", EnumV [])
  | RAccept => (lit "accept", EnumV [])
  | ROut w v => (w, v)
  end.
(** Acknowledgements arrive only when one is being waited for (or after the end). *)
Definition acks_expected (T : node) (evs : list ros_event) : Prop :=
  forall l1 l2, evs = l1 ++ RAccept :: l2 ->
    let s := obs_status T (obs_run T (map ros_word l1)) in s = WAIT_IN \/ is_running s = false.
(** Messages arrive only on channels the test listens to. *)
Definition subscribed (T : node) (evs : list ros_event) : Prop := forall w v, ROut w v ∈ evs -> w ∈ out_names T.
