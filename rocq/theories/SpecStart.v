(** SpecStart.v - what the start-up and address properties mean. *)
From Verif Require Import Base FileUtils LogMain Start SpecConf Spec.

(** The logger's state when it writes somewhere and ends the process on a fatal message. *)
Definition vocal (s : logstate) : Prop := lg_level s <= 5 /\ lg_file s <> LogClosed /\ lg_exited s = false.

(** ** What a start needs *)
Definition upload_dir (m : machine) (f : fs) : Prop :=
  f (L "/tmp/wayuu") = Some Dir \/ f (L "/tmp/wayuu") = None /\ m_mkdir m = true.
Definition tls_ready (m : machine) (c : config) : Prop :=
  cf_ssl c = true -> m_context m = true /\ m_cert m (cf_root c ++ L "/ssl/cert.pem") = true /\ m_key m (cf_root c ++ L "/ssl/key.pem") = true.
Definition bindable (m : machine) (c : config) : Prop :=
  m_bind m (m_socket m) (m_inet m (cf_bind c)) (cf_port c mod 65536) = true.
Definition can_start (m : machine) (c : config) (f : fs) : Prop :=
  upload_dir m f /\ tls_ready m c /\ m_socket m <> -1 /\ bindable m c /\ m_listen m (m_socket m) = true.

(** The first thing that is missing: the level and text of the last message. *)
Inductive missing (m : machine) (c : config) (f : fs) : Z -> str -> Prop :=
| mi_dir : ~ upload_dir m f -> missing m c f 5 (L "Cannot create path /tmp/wayuu")
| mi_context : upload_dir m f -> cf_ssl c = true -> m_context m = false -> missing m c f 4 (L "Unable to create SSL context")
| mi_cert : upload_dir m f -> cf_ssl c = true -> m_context m = true -> m_cert m (cf_root c ++ L "/ssl/cert.pem") = false ->
    missing m c f 4 (L "Failed to use certificate in " ++ cf_root c ++ L "/ssl/cert.pem")
| mi_key : upload_dir m f -> cf_ssl c = true -> m_context m = true -> m_cert m (cf_root c ++ L "/ssl/cert.pem") = true ->
    m_key m (cf_root c ++ L "/ssl/key.pem") = false -> missing m c f 4 (L "Failed to open private_key in " ++ cf_root c ++ L "/ssl/key.pem")
| mi_socket : upload_dir m f -> tls_ready m c -> m_socket m = -1 -> missing m c f 5 (L "Unable to obtain socket handle")
| mi_bind : upload_dir m f -> tls_ready m c -> m_socket m <> -1 -> ~ bindable m c ->
    missing m c f 5 (L "Unable to bind to port " ++ dec (cf_port c))
| mi_listen : upload_dir m f -> tls_ready m c -> m_socket m <> -1 -> bindable m c -> m_listen m (m_socket m) = false ->
    missing m c f 5 (L "Error while listening to socket").

(** ** Addresses *)
Definition octet (n : Z) : Prop := 0 <= n <= 255.
Definition valid (a : address) : Prop := octet (a_1 a) /\ octet (a_2 a) /\ octet (a_3 a) /\ octet (a_4 a).
(** The decimal text of [x] is the end, or the beginning, of that of [y]. *)
Definition ends (x y : Z) : Prop := x = y \/ 10 <= y /\ x = y mod 10 \/ 100 <= y /\ 10 <= x /\ x = y mod 100.
Definition begins (x y : Z) : Prop := x = y \/ 10 <= y /\ x = y / 10 \/ 100 <= y /\ x = y / 100.
(** An entry [b] of a list hits the address [a]. *)
Definition hits (b a : address) : Prop := ends (a_1 a) (a_1 b) /\ a_2 a = a_2 b /\ a_3 a = a_3 b /\ begins (a_4 a) (a_4 b).
