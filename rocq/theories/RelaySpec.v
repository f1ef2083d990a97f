(** What users of the bridge rely on: kernel frames on one side, messages on the
    other. *)
From Verif Require Import Base CanModel CanSpec FilterModel FilterSpec SocketCanModel BridgeModel BridgeSpec RelayModel.

(** ** Kernel frames (linux/can.h) *)
Definition k_ext (k : kframe) : bool := Z.testbit (k_id k) 31.
Definition k_rtr (k : kframe) : bool := Z.testbit (k_id k) 30.
Definition k_err (k : kframe) : bool := Z.testbit (k_id k) 29.
Definition k_number (k : kframe) : Z := k_id k mod 2^(if k_err k || k_ext k then 29 else 11).
(** Frames the kernel delivers: the classes of errors take eleven bits. *)
Definition from_kernel (k : kframe) : Prop :=
  0 <= k_id k < 2^32 /\ 0 <= k_dlc k <= 8 /\ List.length (k_data k) = 8%nat /\ bytes_ok (k_data k) /\
  (k_err k = true -> k_number k < 2^11).

(** ** Which frames are wanted *)
(** The word filters look at, for a kernel frame. *)
Definition k_word (k : kframe) : Z :=
  if k_err k then 2^29 else k_number k + b2z (k_rtr k) * 2^30 + b2z (k_ext k) * 2^31.
(** A number selects the frames with this word, whatever the extended flag; what
    texts select is C04 and C05. *)
Definition selects (p : param) (k : kframe) : Prop :=
  match p with
  | PInt z => k_word k mod 2^31 = z mod 2^31
  | PText t => pass (tofilter t) (mkHeader (k_number k) (k_ext k) (k_rtr k) (k_err k)) = true
  | POther => False
  end.
Definition wanted (can_ids : option (list param)) (k : kframe) : Prop :=
  match can_ids with None => True | Some ps => exists p, In p ps /\ selects p k end.

(** ** What messages say *)
(** The message shows the frame received. (For reports of errors nothing is said
    about extended and remote flag.) *)
Definition shows (m : message) (k : kframe) : Prop :=
  m_id m = k_number k /\ m_err m = k_err k /\ m_dlc m = k_dlc k /\
  (k_err k = false -> m_ext m = k_ext k /\ m_rtr m = k_rtr k) /\
  firstn (Z.to_nat (k_dlc k)) (m_data m) = firstn (Z.to_nat (k_dlc k)) (k_data k).

(** The message is a frame (reports of errors are none), and the frame given to the kernel is this one. *)
Definition describes (m : message) : Prop :=
  m_err m = false /\ m_dlc m <= 8 /\ m_id m < (if m_ext m then 2^29 else 2^11).
Definition carries (m : message) (k : kframe) : Prop :=
  k_id k = m_id m + b2z (m_rtr m) * 2^30 + b2z (m_ext m) * 2^31 /\ k_dlc k = m_dlc m /\
  k_data k = firstn (Z.to_nat (m_dlc m)) (m_data m) ++ repeat 0 (8 - Z.to_nat (m_dlc m)).

(** ** Histories *)
Fixpoint received (es : list revent) : list kframe :=
  match es with
  | [] => []
  | Bus (EReceive k) :: t => k :: received t
  | _ :: t => received t
  end.
Fixpoint topics (es : list revent) : list message :=
  match es with
  | [] => []
  | Topic m _ :: t => m :: topics t
  | _ :: t => topics t
  end.
Fixpoint published (o : list rout) : list message :=
  match o with
  | [] => []
  | Published m :: t => m :: published t
  | _ :: t => published t
  end.
Fixpoint answers (o : list rout) : list rout :=
  match o with
  | [] => []
  | Published _ :: t => answers t
  | x :: t => x :: answers t
  end.
(** [out] are the elements of [l] with property [p], in order. *)
Inductive those {A} (p : A -> Prop) : list A -> list A -> Prop :=
| those_nil : those p [] []
| those_in : forall a l out, p a -> those p l out -> those p (a :: l) (a :: out)
| those_out : forall a l out, ~ p a -> those p l out -> those p (a :: l) out.

Definition answer (m : message) (x : rout) : Prop :=
  match x with
  | Written k => describes m /\ carries m k
  | Failed => describes m
  | Refused => ~ describes m
  | Published _ => False
  end.

(** Frames come from the kernel, messages have the fields of their type, and only the node sends. *)
Definition message_event (e : revent) : Prop :=
  match e with
  | Bus (EReceive k) => from_kernel k
  | Bus (ESend _ _) => False
  | Bus _ => True
  | Topic m _ => message_ok m
  end.

Fixpoint written (o : list rout) : list kframe :=
  match o with
  | [] => []
  | Written k :: t => k :: written t
  | _ :: t => written t
  end.
(** The two messages stand for the same frame. *)
Definition alike (a b : message) : Prop :=
  m_id a = m_id b /\ m_ext a = m_ext b /\ m_rtr a = m_rtr b /\ m_err a = m_err b /\ m_dlc a = m_dlc b /\
  firstn (Z.to_nat (m_dlc a)) (m_data a) = firstn (Z.to_nat (m_dlc b)) (m_data b).
