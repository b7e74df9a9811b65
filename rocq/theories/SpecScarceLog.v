(** SpecScarceLog.v - which messages of the start need a time stamp. *)
From Verif Require Import Base LogMain Start SpecStart Spec.

(** The start gets to its socket. *)
Definition with_socket (m : machine) (c : config) (f : fs) : Prop := upload_dir m f /\ tls_ready m c /\ m_socket m <> -1.
(** The lines of ws.c whose messages are written, at this level of the log.  2: information, 4: errors. *)
Inductive start_stamps (m : machine) (c : config) (f : fs) (level : Z) : Z -> Prop :=
| ss_dir : ~ upload_dir m f -> start_stamps m c f level 718
| ss_context : upload_dir m f -> cf_ssl c = true -> m_context m = false -> level <= 4 -> start_stamps m c f level 137
| ss_cert : upload_dir m f -> cf_ssl c = true -> m_context m = true -> m_cert m (cf_root c ++ L "/ssl/cert.pem") = false ->
    level <= 4 -> start_stamps m c f level 154
| ss_key : upload_dir m f -> cf_ssl c = true -> m_context m = true -> m_cert m (cf_root c ++ L "/ssl/cert.pem") = true ->
    m_key m (cf_root c ++ L "/ssl/key.pem") = false -> level <= 4 -> start_stamps m c f level 160
| ss_socket : upload_dir m f -> tls_ready m c -> m_socket m = -1 -> start_stamps m c f level 744
| ss_address : with_socket m c f -> level <= 2 -> start_stamps m c f level 751
| ss_port : with_socket m c f -> level <= 2 -> start_stamps m c f level 752
| ss_reuse : with_socket m c f -> m_reuse m = false -> level <= 4 -> start_stamps m c f level 757
| ss_bind : with_socket m c f -> ~ bindable m c -> start_stamps m c f level 760
| ss_listen : with_socket m c f -> bindable m c -> m_listen m (m_socket m) = false -> start_stamps m c f level 767
| ss_running : can_start m c f -> level <= 2 -> start_stamps m c f level 771.
