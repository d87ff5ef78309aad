(** * Common: channel names and joined display, src/common/channel.rs and
    src/common.rs (model, no proofs). *)

From Verif Require Import Base.

(** ** Channel names: src/common/channel.rs *)

(** [ChannelRef(str)], [Channel(String)]: channel.rs:5-7, 80-83. *)
Inductive channel_ref := ChannelRef (s : str).
Inductive channel := Channel (s : str).

(** [as_str], and [Deref], [AsRef<str>], [Borrow<str>] and [Display] (all hand out
    the inner string): channel.rs:11-13, 34-70 and 87-89, 106-146. *)
Definition ref_as_str (c : channel_ref) : str := match c with ChannelRef s => s end.
Definition chan_as_str (c : channel) : str := match c with Channel s => s end.

(** [from_unchecked]: channel.rs:25-31, 101-103. *)
Definition ref_from_unchecked (s : str) : channel_ref := ChannelRef s.
Definition chan_from_unchecked (s : str) : channel := Channel s.

(** [ChannelRef::parse]: channel.rs:18-23; [Err(InvalidChannelName)] is [None]. *)
Definition channel_ref_parse (s : str) : option channel_ref :=
  match starts_with (b "#") s with
  | true => Some (ref_from_unchecked s)
  | false => None
  end.

(** [Channel::parse]: channel.rs:94-99. *)
Definition channel_parse_owned (s : str) : option channel :=
  match starts_with (b "#") s with
  | true => Some (Channel s)
  | false => None
  end.

(** [ToOwned for ChannelRef]: channel.rs:72-78. *)
Definition channel_to_owned (c : channel_ref) : channel := chan_from_unchecked (ref_as_str c).

(** [AsRef<ChannelRef>] and [Borrow<ChannelRef> for Channel]: channel.rs:120-124,
    132-136. *)
Definition channel_as_ref (c : channel) : channel_ref := ref_from_unchecked (chan_as_str c).

(** What a deserialiser offers for a string: a slice of its input, or a temporary
    copy (for instance because the input contained escapes). *)
Inductive offered := Slice (s : str) | Copied (s : str).

(** [<&str as Deserialize>]: only a slice of the input will do (serde). *)
Definition de_borrowed_str (o : offered) : option str :=
  match o with Slice s => Some s | Copied _ => None end.

(** [<String as Deserialize>]: both (serde). *)
Definition de_string (o : offered) : option str :=
  match o with Slice s => Some s | Copied s => Some s end.

(** [Serialize for &ChannelRef] and [for Channel]: channel.rs:194-201, 213-220:
    the string. *)
Definition channel_ref_serialize (c : channel_ref) : str := ref_as_str c.
Definition channel_serialize (c : channel) : str := chan_as_str c.

(** [Deserialize for &ChannelRef]: channel.rs:184-192. *)
Definition channel_ref_deserialize (o : offered) : option channel_ref :=
  opt_bind (de_borrowed_str o) channel_ref_parse.

(** [Deserialize for Channel]: channel.rs:203-211. *)
Definition channel_deserialize (o : offered) : option channel :=
  opt_bind (de_string o) channel_parse_owned.

(** ** Joined display: src/common.rs *)

(** A [fmt::Formatter] over a buffer: what was written, and how many bytes still
    fit ([None]: a [String], no limit).  A text that does not fit is refused. *)
Record sink := mk_sink { sk_out : str; sk_room : option nat }.

(** [write!(f, "{s}")]; [false] is [Err(fmt::Error)]. *)
Definition write_str (f : sink) (s : str) : sink * bool :=
  match sk_room f with
  | None => (mk_sink (sk_out f ++ s) None, true)
  | Some n =>
    if length s <=? n then (mk_sink (sk_out f ++ s) (Some (n - length s)), true)
    else (f, false)
  end.

(** [Join<I, S>]: common.rs:52-53; the items are represented by the text they
    display. *)
Record join := mk_join { jn_iter : option (list str); jn_sep : str }.

(** [JoinIter::join]: common.rs:89-91. *)
Definition join_new (items : list str) (sep : str) : join := mk_join (Some items) sep.

(** The [while let] loop of common.rs:70-75. *)
Fixpoint join_loop (sep : str) (items : list str) (f : sink) : sink * bool :=
  match items with
  | [] => (f, true)
  | item :: rest =>
    let '(f, ok) := write_str f item in
    if ok then
      match rest with
      | [] => join_loop sep rest f
      | _ :: _ =>
        let '(f, ok) := write_str f sep in
        if ok then join_loop sep rest f else (f, false)
      end
    else (f, false)
  end.

(** [Display for Join]: common.rs:63-77.  The iterator is taken out of the cell. *)
Definition join_fmt (j : join) (f : sink) : join * sink * bool :=
  match jn_iter j with
  | None => (j, f, false)
  | Some items =>
    let '(f, ok) := join_loop (jn_sep j) items f in
    (mk_join None (jn_sep j), f, ok)
  end.
