(** * SpecGuiWatch: messages that reach the programs, and messages that do not. *)
From Verif Require Import Base Group GuiCeremony SpecGui GuiWatch.
Import List.

Definition good_watch (E : env) (we : watch_event) : Prop := match we with Step e => good_event E e | _ => True end.
Definition watch_of (ps : list program) (we : watch_event) : Prop := match we with Step e => of_programs ps e | _ => True end.
(** nobody has anything left to do: every program waits for a message, and there is none it has not read *)
Definition quiet (w : watch_world) : Prop :=
  forall c cl, dget c (w_clients (ww_world w)) = Some cl ->
    cl_phase cl = Idle /\ dget c (ww_watches w) = Some (mkWatch (Watching (ww_sent w)) false).
(** program [c] has changed the document and has yet to send the message *)
Definition about_to_tell (w : watch_world) (c : string) : Prop := exists s, dget c (ww_watches w) = Some (mkWatch s true).
(** program [c] is going to look at the document: its page is just opened, or there is a message it has not read *)
Definition will_look (w : watch_world) (c : string) : Prop :=
  exists s o, dget c (ww_watches w) = Some (mkWatch s o) /\ match s with NotLooked => True | Looked _ => False | Watching i => i < ww_sent w end.
(** everybody is going to hear of the state of the document *)
Definition news (w : watch_world) : Prop :=
  (exists c, about_to_tell w c) \/ forall c cl, dget c (w_clients (ww_world w)) = Some cl -> will_look w c.
(** no program is closed between a change of the document and its message, and no message arrives between the
    first look of a program and the moment it starts to watch *)
Fixpoint orderly (E : env) (w : watch_world) (l : list watch_event) : Prop :=
  match l with
  | [] => True
  | e :: l' =>
    match e with
    | Step (Open c _ _) => ~ about_to_tell w c /\ forall cl, dget c (w_clients (ww_world w)) = Some cl -> cl_phase cl <> Published
    | Burn c => forall n o, dget c (ww_watches w) = Some (mkWatch (Looked n) o) -> n = ww_sent w
    | _ => True
    end /\ orderly E (watch_step E w e) l'
  end.
(** nobody opens a page or presses the button "join" *)
Definition by_itself (we : watch_event) : Prop := match we with Step (Open _ _ _) | Step (Join _) => False | _ => True end.
(** every step of the run changes something *)
Fixpoint moving (E : env) (w : watch_world) (l : list watch_event) : Prop :=
  match l with [] => True | e :: l' => watch_step E w e <> w /\ moving E (watch_step E w e) l' end.
(** some program can take a step *)
Definition can_move (E : env) (w : watch_world) : Prop := exists we, good_watch E we /\ by_itself we /\ watch_step E w we <> w.
