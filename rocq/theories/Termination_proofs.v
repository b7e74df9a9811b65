(** Termination_proofs.v - the bounds given to the loops of the model are always enough. *)
From Verif Require Import WsRequest JsonUtils LogMain Lemmas Spec.

(** The computation does not run out of steps. *)
Definition ends {A} (x : outcome A) : Prop := x <> UB OutOfFuel.

Lemma ends_ok A (a : A) : ends (Ok a).
Proof. discriminate. Qed.
Lemma ends_bind A B (x : outcome A) (f : A -> outcome B) : ends x -> (forall a, x = Ok a -> ends (f a)) -> ends (bind x f).
Proof. unfold ends. destruct x; cbn; auto. intros H _ E. apply H. now injection E as ->. Qed.
Lemma ends_rd b i : ends (rd b i).
Proof. unfold rd. destruct (_ && _); [|discriminate]. destruct nth_error as [[]|]; discriminate. Qed.
Lemma ends_write_at b i l : ends (write_at b i l).
Proof. unfold write_at. destruct (_ && _); discriminate. Qed.
Lemma ends_wr b i c : ends (wr b i c).
Proof. apply ends_write_at. Qed.
Lemma ends_slice b i n : ends (slice b i n).
Proof. unfold slice. destruct (_ <? _); [discriminate|]. destruct (_ && _); discriminate. Qed.
Lemma ends_fits n s : ends (fits n s).
Proof. unfold fits. destruct (_ <=? _); discriminate. Qed.
Lemma ends_cstr b : ends (cstr b).
Proof. induction b as [|[c|] b IH]; try discriminate. cbn [cstr]. destruct (ceq c NUL); [discriminate|]. apply ends_bind; auto. discriminate. Qed.
Lemma ends_cstrn n b : ends (cstrn n b).
Proof. revert b. induction n as [|n IH]; intros [|[c|] b]; try discriminate. cbn [cstrn]. destruct (ceq c NUL); [discriminate|]. apply ends_bind; auto. discriminate. Qed.
Lemma ends_defined l : ends (defined_bytes l).
Proof. induction l as [|[c|] l IH]; try discriminate. cbn [defined_bytes]. apply ends_bind; auto. discriminate. Qed.
Lemma ends_strcmp a b : ends (strcmp_eq a b).
Proof. revert b. induction a as [|[x|] a IH]; intros [|[y|] b]; try discriminate. cbn [strcmp_eq]. destruct (ceq x y); [|discriminate]. destruct (ceq x NUL); [discriminate|auto]. Qed.
Lemma ends_strncasecmp n a b : ends (strncasecmp_eq n a b).
Proof. revert a b. induction n as [|n IH]; intros [|[x|] a] [|[y|] b]; try discriminate. cbn [strncasecmp_eq]. destruct (ceq _ _); [|discriminate]. destruct (ceq x NUL); [discriminate|auto]. Qed.

Create HintDb ends.
#[export] Hint Resolve ends_ok ends_rd ends_write_at ends_wr ends_slice ends_fits ends_cstr ends_cstrn ends_defined ends_strcmp ends_strncasecmp : ends.
(** Sequences of steps. *)
Ltac step1 :=
  match goal with
  | |- ends (Ok _) => apply ends_ok
  | |- ends (UB _) => discriminate
  | |- ends (bind _ _) => apply ends_bind; [|intros]
  | |- ends (if ?c then _ else _) => destruct c
  | |- ends (match ?x with _ => _ end) => destruct x
  | |- ends (let _ := _ in _) => cbv zeta
  | |- _ => solve [auto with ends]
  end.
Ltac steps := repeat (step1; cbv beta).

Lemma ends_int_add a b : ends (int_add a b).
Proof. unfold int_add. steps. Qed.
#[export] Hint Resolve ends_int_add : ends.
Lemma ends_strlen b : ends (strlen b).
Proof. unfold strlen. steps. Qed.
Lemma ends_strdup b : ends (strdup b).
Proof. unfold strdup. steps. Qed.
Lemma ends_strcpy b i s : ends (strcpy b i s).
Proof. unfold strcpy. steps. Qed.
#[export] Hint Resolve ends_strlen ends_strdup ends_strcpy : ends.
Lemma ends_strcat b s : ends (strcat b s).
Proof. unfold strcat. steps. Qed.
Lemma ends_strncpy d s n : ends (strncpy d s n).
Proof. unfold strncpy. steps. Qed.
Lemma ends_memcpy d i s j n : ends (memcpy d i s j n).
Proof. unfold memcpy. steps. Qed.
#[export] Hint Resolve ends_strcat ends_strncpy ends_memcpy : ends.

(** ** string_utils.c *)
Lemma ends_chop b : ends (chop_string b).
Proof.
  unfold chop_string. steps. clear H. rename b into c. set (k := Z.to_nat a). clearbody k. generalize 0. revert c.
  induction k as [|k IH]; intros c i; cbn [chop_loop]; steps.
Qed.
Lemma ends_lscan k : forall i b, ends (lscan k i b).
Proof. induction k as [|k IH]; intros; cbn [lscan]; steps. Qed.
Lemma ends_rscan k : forall b, ends (rscan k b).
Proof. induction k as [|k IH]; intros; cbn [rscan]; steps. Qed.
#[export] Hint Resolve ends_chop ends_lscan ends_rscan : ends.
Lemma ends_trim b : ends (trim b).
Proof. unfold trim. steps. Qed.
#[export] Hint Resolve ends_trim : ends.
Lemma len_write_at b i l b' : write_at b i l = Ok b' -> len b' = len b.
Proof.
  unfold write_at. destruct (_ && _) eqn:E; [|discriminate]. intros [= <-]. apply andb_true_iff in E as [E1 E2]. unfold len in *.
  rewrite !app_length, firstn_length, skipn_length. lia.
Qed.
Lemma cstr_len b s : cstr b = Ok s -> len s < len b.
Proof.
  revert s. induction b as [|[c|] b IH]; intros s; try discriminate. cbn [cstr]. destruct (ceq c NUL); [intros [= <-]; rewrite len_cons; unfold len; cbn; lia|].
  destruct (cstr b) as [r|]; [|discriminate]. cbn [bind]. intros [= <-]. rewrite !len_cons. specialize (IH r eq_refl). lia.
Qed.
Lemma ends_rtrim_loop k : forall i sep b, 0 <= i -> len b <= Z.of_nat k + i -> ends (rtrim_loop k i sep b).
Proof.
  induction k as [|k IH]; intros i sep b Hi Hb; cbn [rtrim_loop]; apply ends_bind; auto with ends; intros n En;
    unfold strlen in En; destruct (cstr b) as [s|] eqn:Es; try discriminate; injection En as <-; apply cstr_len in Es;
    destruct (Z.ltb_spec i (len s)); try discriminate; try lia.
  apply ends_bind; auto with ends. intros c _. apply ends_bind; [steps|]. intros b' Eb'. apply IH; [lia|].
  assert (len b' = len b); [|lia]. destruct (ceq c sep); [now apply len_write_at in Eb'|now injection Eb' as <-].
Qed.
Lemma ends_rtrim b c : ends (rtrim b c).
Proof. unfold rtrim. steps. apply ends_rtrim_loop; [lia|unfold len; lia]. Qed.
Lemma ends_ltrim b c : ends (ltrim b c).
Proof.
  unfold ltrim. steps. clear H. set (k := Z.to_nat a). clearbody k. generalize 0. induction k as [|k IH]; intros i; cbn [ltrim_loop]; steps.
Qed.
#[export] Hint Resolve ends_rtrim ends_ltrim : ends.
Lemma ends_md5_feed k : forall d off n, n <= 512 * Z.of_nat k -> ends (md5_feed k d off n).
Proof.
  induction k as [|k IH]; intros d off n Hn; cbn [md5_feed]; (destruct (Z.ltb_spec 0 n); [|steps]); [lia|].
  steps. apply IH. lia.
Qed.
Lemma ends_md5_hex l : forall i b, ends (md5_hex i l b).
Proof. induction l as [|c l IH]; intros; cbn [md5_hex]; steps. Qed.
#[export] Hint Resolve ends_md5_hex : ends.
Lemma ends_md5sum m o d off n : ends (md5sum m o d off n).
Proof.
  unfold md5sum. steps. apply ends_md5_feed. pose proof (Z.div_mod n 512). pose proof (Z.mod_pos_bound n 512). lia.
Qed.
#[export] Hint Resolve ends_md5sum : ends.
Lemma ends_join_loop l d : forall b, ends (join_loop l d b).
Proof. induction l as [|[s|] l IH]; intros; cbn [join_loop]; steps. Qed.
#[export] Hint Resolve ends_join_loop : ends.
Lemma ends_join a n d : ends (join a n d).
Proof. unfold join. steps. Qed.
#[export] Hint Resolve ends_join : ends.

Lemma drop_while_le p s : (length (drop_while p s) <= length s)%nat.
Proof. induction s as [|c s IH]; cbn; [lia|]. destruct (p c); cbn; lia. Qed.
Lemma strtok_shorter d s tok rest : strtok d s = Some (tok, rest) -> (length rest < length s)%nat.
Proof.
  unfold strtok. destruct (drop_while (is_delim d) s) as [|c t] eqn:E; [discriminate|]. intros [= _ <-].
  assert (H : (S (length t) <= length s)%nat) by (rewrite <- (drop_while_le (is_delim d) s), E; cbn; lia).
  destruct (negb _); [|cbn; lia]. pose proof (drop_while_le (fun c => negb (is_delim d c)) t) as D.
  destruct (drop_while _ t) as [|y u]; cbn [tl length] in *; lia.
Qed.
Lemma strtok_nonempty d s tok rest : strtok d s = Some (tok, rest) -> (0 < length s)%nat.
Proof. intros H. apply strtok_shorter in H. lia. Qed.
Lemma ends_split_loop k : forall n d s, (length s <= k)%nat -> ends (split_loop k n d s).
Proof.
  induction k as [|k IH]; intros n d s H; cbn [split_loop]; destruct (strtok d s) as [(tok, rest)|] eqn:E; try discriminate; apply strtok_shorter in E; [lia|].
  unfold split_entry. steps. apply IH. lia.
Qed.
Lemma ends_split s d : ends (StringUtils.split s d).
Proof. unfold StringUtils.split. apply ends_split_loop. lia. Qed.
Lemma ends_split_once b d : ends (split_once b d).
Proof. unfold split_once, split_entry. steps. Qed.
#[export] Hint Resolve ends_split ends_split_once : ends.
Lemma ends_startswith b p : ends (startswith b p).
Proof. unfold startswith. steps. Qed.
#[export] Hint Resolve ends_startswith : ends.
Lemma ends_startswithany b l : ends (startswithany b l).
Proof. induction l as [|[[|c p]|] l IH]; cbn [startswithany]; steps. Qed.
#[export] Hint Resolve ends_startswithany : ends.
Lemma ends_match_at n : forall h i, ends (match_at h i n).
Proof. induction n as [|c n IH]; intros; cbn [match_at]; steps. Qed.
#[export] Hint Resolve ends_match_at : ends.
Lemma ends_find h n i e : ends (text_find_after h n i e).
Proof.
  unfold text_find_after. set (k := Z.to_nat (e - i)). clearbody k. revert i. induction k as [|k IH]; intros; cbn [find_loop]; steps.
Qed.
Lemma ends_isalnum b : ends (string_isalnum b).
Proof.
  unfold string_isalnum. steps. set (k := Z.to_nat _). clearbody k. generalize 0. induction k as [|k IH]; intros; cbn [isalnum_loop]; steps.
Qed.
#[export] Hint Resolve ends_find ends_isalnum : ends.

(** ** json_utils.c, file_utils.c *)
Lemma ends_free_jstr j : ends (free_jstr j).
Proof. unfold free_jstr. steps. Qed.
#[export] Hint Resolve ends_free_jstr : ends.
Lemma ends_json_strings a n : ends (json_array_of_strings a n).
Proof. unfold json_array_of_strings. steps. Qed.
Lemma ends_json_entities l : ends (json_array_of_entities l).
Proof. unfold json_array_of_entities. steps. Qed.
Lemma ends_json_key k v : ends (json_key_value k v).
Proof. unfold json_key_value. steps. Qed.
Lemma ends_json_raw k v : ends (json_key_raw k v).
Proof. unfold json_key_raw. steps. Qed.
Lemma ends_json_int k v : ends (json_key_value_int k v).
Proof. unfold json_key_value_int. steps. apply ends_json_raw. Qed.
Lemma ends_json_bool k v : ends (json_key_value_bool k v).
Proof. unfold json_key_value_bool. steps; apply ends_json_raw. Qed.
Lemma ends_json_uint k v : ends (json_key_value_uint32_t k v).
Proof. unfold json_key_value_uint32_t. steps. apply ends_json_raw. Qed.
Lemma ends_ints_loop l : forall i n b, ends (ints_loop l i n b).
Proof. induction l as [|z l IH]; intros; cbn [ints_loop]; steps. Qed.
#[export] Hint Resolve ends_ints_loop ends_json_entities ends_json_key : ends.
Lemma ends_json_ints a n : ends (json_array_of_ints a n).
Proof. unfold json_array_of_ints. steps. Qed.
Lemma ends_read_file f o p n : ends (read_file f o p n).
Proof. unfold read_file. steps. Qed.
Lemma ends_write_file f p b o n : ends (write_file f p b o n).
Proof. unfold write_file. steps. Qed.
#[export] Hint Resolve ends_read_file ends_write_file : ends.
Lemma ends_find_in_file f p n : ends (find_in_file f p n).
Proof. unfold find_in_file. steps. Qed.
Lemma ends_ip_paths g : ends (ip_paths g).
Proof. unfold ip_paths. steps. Qed.
#[export] Hint Resolve ends_find_in_file ends_ip_paths : ends.
Lemma ends_allowed f g ip : ends (allowed_address f g ip).
Proof. unfold allowed_address. steps. Qed.

(** ** conf_parser.c *)
Lemma ends_trim_str s : ends (trim_str s).
Proof. unfold trim_str. steps. Qed.
#[export] Hint Resolve ends_trim_str : ends.
Lemma ends_multi_loop k : forall i s, (length s <= k)%nat -> ends (multi_loop k i s).
Proof.
  induction k as [|k IH]; intros i s H; cbn [multi_loop]; (destruct (i <? _); [|steps]); cbv zeta; destruct (strtok MULTI_DELIM s) as [(tok, rest)|] eqn:E; try discriminate; apply strtok_shorter in E; [lia|].
  steps. apply IH. lia.
Qed.
Lemma ends_multi i : ends (conf_parse_multi i).
Proof. unfold conf_parse_multi. destruct (strtok _ _) as [(tok, rest)|] eqn:E; [|steps]. apply strtok_shorter in E. steps. apply ends_multi_loop. lia. Qed.
Lemma ends_first_pass l : ends (conf_parse_first_pass l).
Proof. unfold conf_parse_first_pass. steps. Qed.
#[export] Hint Resolve ends_multi ends_first_pass : ends.
Lemma ends_parse_line l m : ends (conf_parse_line l m).
Proof. unfold conf_parse_line. steps. Qed.
Lemma take_line_shorter n s : (length (snd (take_line n s)) <= length s)%nat.
Proof.
  revert s. induction n as [|n IH]; intros [|c s]; cbn [take_line snd length]; try lia. destruct (ceq c LF); [cbn; lia|].
  specialize (IH s). destruct (take_line n s). cbn [snd] in *. lia.
Qed.
Lemma fgets_shorter n s l rest : 2 <= n -> fgets n s = Some (l, rest) -> (length rest < length s)%nat.
Proof.
  intros Hn. unfold fgets. destruct s as [|c s]; [discriminate|]. intros [= H]. replace (Z.to_nat (n - 1)) with (S (Z.to_nat (n - 2))) in H by lia. cbn [take_line] in H.
  destruct (ceq c LF); [injection H as _ <-; cbn; lia|]. pose proof (take_line_shorter (Z.to_nat (n - 2)) s) as T.
  destruct (take_line _ s) as (a, b). injection H as _ <-. cbn [snd length] in *. lia.
Qed.
Lemma getline_shorter s l rest : getline s = Some (l, rest) -> (length rest < length s)%nat.
Proof.
  unfold getline. destruct s as [|c s]; [discriminate|]. intros [= H]. 
  destruct (ceq c LF); [injection H as _ <-; cbn; lia|]. pose proof (take_line_shorter (length s) s) as T.
  destruct (take_line _ s) as (a, b). injection H as _ <-. cbn [snd length] in *. lia.
Qed.
Lemma ends_parse_loop k : forall p fl s, (length s <= k)%nat -> ends (parse_loop k p fl s).
Proof.
  induction k as [|k IH]; intros p fl s H; cbn [parse_loop]; destruct (fgets MAX_LINE_LEN s) as [(l, rest)|] eqn:E; try discriminate;
    apply fgets_shorter in E; try (unfold MAX_LINE_LEN; lia).
  steps; apply IH; lia.
Qed.
Lemma ends_parse f p fl : ends (parse f p fl).
Proof. unfold parse. steps. apply ends_parse_loop. lia. Qed.
Lemma ends_item_string i : ends (conf_item_to_string i).
Proof. unfold conf_item_to_string. steps. Qed.
#[export] Hint Resolve ends_item_string : ends.
Lemma ends_ser_loop l : forall a, ends (ser_loop l a).
Proof. induction l as [|i l IH]; intros; cbn [ser_loop]; steps. Qed.
#[export] Hint Resolve ends_ser_loop : ends.
Lemma ends_ser_string s : ends (serializable_to_string s).
Proof. unfold serializable_to_string. steps. Qed.
Lemma ends_conf_lines l : ends (conf_lines l).
Proof. induction l as [|i l IH]; cbn [conf_lines]; steps. Qed.
#[export] Hint Resolve ends_conf_lines : ends.
Lemma ends_write_conf f s : ends (write_conf f s).
Proof. unfold write_conf, write_conf_events. steps. Qed.

(** ** http_utils.c *)
Lemma ends_get_header l n : ends (get_header_loop l n).
Proof. induction l as [|h l IH]; cbn [get_header_loop]; steps. Qed.
#[export] Hint Resolve ends_get_header : ends.
Lemma ends_header r n : ends (http_get_header r n).
Proof. unfold http_get_header. steps. Qed.
#[export] Hint Resolve ends_header : ends.
Lemma ends_log_access r st : ends (log_access r st).
Proof. unfold log_access. steps. Qed.
#[export] Hint Resolve ends_log_access : ends.
Lemma ends_return_headers r f : ends (return_headers r f).
Proof. unfold return_headers. steps. Qed.
Lemma ends_return_file f r p : ends (return_file f r p).
Proof. unfold return_file. steps. Qed.
#[export] Hint Resolve ends_return_headers ends_return_file : ends.
Lemma ends_direct_file f r p : ends (direct_file f r p).
Proof. unfold direct_file. steps. Qed.
Lemma ends_stream_loop k : forall s n r, (length s <= k)%nat -> ends (stream_loop k s n r).
Proof.
  induction k as [|k IH]; intros s n r H; cbn [stream_loop]; destruct (fgets (1024 - 1) s) as [(l, rest)|] eqn:E; try discriminate; apply fgets_shorter in E; try lia.
  cbv zeta. steps. apply IH. lia.
Qed.
Lemma ends_send_stream r s : ends (send_stream r s).
Proof. unfold send_stream. steps. apply ends_stream_loop. lia. Qed.
Lemma ends_json_headers r st : ends (return_json_headers r st).
Proof. unfold return_json_headers. steps. Qed.
#[export] Hint Resolve ends_direct_file ends_send_stream ends_json_headers : ends.
Lemma ends_json_stream r st s : ends (return_json_stream r st s).
Proof. unfold return_json_stream. steps. Qed.
Lemma ends_json_status r st s : ends (return_json_with_status r st s).
Proof. unfold return_json_with_status. steps. Qed.
#[export] Hint Resolve ends_json_status : ends.
Lemma ends_send_status r st m : ends (send_http_status r st m).
Proof. unfold send_http_status. steps. Qed.
#[export] Hint Resolve ends_send_status : ends.
Lemma ends_bad r : ends (bad_request r).
Proof. unfold bad_request. steps. Qed.
Lemma ends_many r : ends (too_many_connections r).
Proof. unfold too_many_connections. steps. Qed.
Lemma ends_path_query u : ends (get_path_and_query_string u).
Proof. unfold get_path_and_query_string. steps. Qed.
#[export] Hint Resolve ends_bad ends_many ends_path_query : ends.

(** ** router.c *)
Lemma ends_brace_scan k : forall b i, 0 <= i -> len b <= Z.of_nat k + i -> ends (brace_scan k b i).
Proof.
  induction k as [|k IH]; intros b i Hi H; cbn [brace_scan]; apply ends_bind; auto with ends; intros c Ec.
  - unfold rd in Ec. destruct ((0 <=? i) && (i <? len b)) eqn:E; [lia|discriminate].
  - destruct (_ && _); [|steps]. apply IH; lia.
Qed.
Lemma ends_resolve s : ends (router_resolve_route s).
Proof. unfold router_resolve_route. steps. apply ends_brace_scan; [lia|unfold len; lia]. Qed.
#[export] Hint Resolve ends_resolve : ends.
Lemma ends_add_route t s h f : ends (router_add_route t s h f).
Proof. unfold router_add_route. steps. Qed.
Lemma ends_extract p q r : ends (router_extract_param p q r).
Proof. unfold router_extract_param. steps. Qed.
#[export] Hint Resolve ends_extract : ends.
Lemma ends_route_loop t m r : ends (route_loop t m r).
Proof. induction t as [|rt t IH]; cbn [route_loop]; steps. Qed.
#[export] Hint Resolve ends_route_loop : ends.
Lemma ends_handle a t r : ends (router_handle_request a t r).
Proof. unfold router_handle_request, reject_routing_request. steps. Qed.
#[export] Hint Resolve ends_handle : ends.

(** ** ws.c *)
Lemma ends_stats t p ip : forall a b, ends (get_live_stats t p ip a b).
Proof. induction t as [|c t IH]; intros; cbn [get_live_stats]; steps. Qed.
#[export] Hint Resolve ends_stats : ends.
Lemma ends_validate rs t ip p : ends (connection_validate rs t ip p).
Proof. induction rs as [|r rs IH]; cbn [connection_validate]; steps. Qed.
Lemma ends_claim t s ip p : ends (claim_slot t s ip p).
Proof. induction t as [|c t IH]; cbn [claim_slot]; steps. Qed.
#[export] Hint Resolve ends_validate ends_claim : ends.
Lemma ends_add rs t s ip p : ends (connection_add rs t s ip p).
Proof. unfold connection_add. steps. Qed.
#[export] Hint Resolve ends_add : ends.
Lemma ends_limits_loop k : forall n prev s, (length s <= k)%nat -> ends (limits_loop k n prev s).
Proof.
  induction k as [|k IH]; intros n prev s H; cbn [limits_loop]; destruct (getline s) as [(l, rest)|] eqn:E; try discriminate; apply getline_shorter in E; [lia|].
  unfold limit_fields. steps; apply IH; lia.
Qed.
Lemma ends_load_limits f r : ends (load_limits f r).
Proof. unfold load_limits. steps. apply ends_limits_loop. lia. Qed.
Lemma ends_save e f tf fl sf td ds n : ends (save_tmp_file e f tf fl sf td ds n).
Proof. unfold save_tmp_file. steps. Qed.
#[export] Hint Resolve ends_save : ends.
Lemma ends_part e f tf td n : ends (part_parse e f tf td n).
Proof. unfold part_parse. steps. Qed.
#[export] Hint Resolve ends_part : ends.
Lemma find_ge h n i e r : text_find_after h n i e = Ok r -> r = -1 \/ i + len n <= r.
Proof.
  unfold text_find_after. set (k := Z.to_nat (e - i)). clearbody k. revert i. induction k as [|k IH]; intros i; cbn [find_loop]; [intros [= <-]; now left|].
  destruct (match_at h i n) as [[]|]; cbn [bind]; [intros [= <-]; right; lia| |discriminate]. intros H. apply IH in H. lia.
Qed.
Lemma ends_multipart_loop k : forall e f form tp tf bnd n ptr, 0 <= ptr -> n - ptr <= Z.of_nat k -> ends (multipart_loop k e f form tp tf bnd n ptr).
Proof.
  induction k as [|k IH]; intros e f form tp tf bnd n ptr Hp H; cbn [multipart_loop]; destruct (Z.ltb_spec ptr n); try discriminate; [lia|].
  apply ends_bind; auto with ends. intros ps Ep. apply find_ge in Ep. destruct (Z.ltb_spec ps 0); [steps|]. pose proof (len_nonneg _ bnd).
  steps. apply IH; lia.
Qed.
Lemma ends_multipart e f form bnd n : ends (multipart_parse e f form bnd n).
Proof. unfold multipart_parse. steps. apply ends_multipart_loop; lia. Qed.
#[export] Hint Resolve ends_multipart : ends.
Lemma ends_api v f s r n bnd : ends (handle_api_request v f s r n bnd).
Proof. unfold handle_api_request. steps. Qed.
Lemma ends_static v f r : ends (handle_static_routes v f r).
Proof. unfold handle_static_routes. steps. Qed.
Lemma ends_get_line_loop s : forall b i n, ends (get_line_loop s b i n).
Proof. induction s as [|c s IH]; intros; cbn [get_line_loop]; steps. Qed.
#[export] Hint Resolve ends_get_line_loop : ends.
Lemma ends_get_line s b n : ends (get_line s b n).
Proof. unfold get_line. steps. Qed.
#[export] Hint Resolve ends_api ends_static ends_get_line : ends.
Lemma get_line_consumes s b n i b' s' : get_line s b n = Ok (i, b', s') -> (length s' <= length s)%nat /\ (0 < i -> (length s' < length s)%nat).
Proof.
  unfold get_line. destruct (get_line_loop s b 0 n) as [((i1, b1), s1)|] eqn:E; [|discriminate]. cbn [bind]. destruct (wr b1 i1 NUL); [|discriminate]. cbn [bind]. intros [= <- <- <-].
  assert (G : forall s b i, 0 <= i -> get_line_loop s b i n = Ok (i1, b1, s1) -> (length s1 <= length s)%nat /\ (i < i1 -> (length s1 < length s)%nat)).
  { clear. induction s as [|c s IH]; intros b i Hi; cbn [get_line_loop]; destruct (i <? n - 1).
    - intros [= <- <- <-]. split; [lia|lia].
    - intros [= <- <- <-]. split; [lia|lia].
    - destruct (wr b i c); [|discriminate]. cbn [bind]. destruct (ceq c LF); [intros [= <- <- <-]; cbn; lia|]. intros H. apply IH in H; [|lia]. cbn. lia.
    - intros [= <- <- <-]. split; [lia|lia]. }
  apply G in E; [exact E|lia].
Qed.
Lemma ends_header_line h : ends (header_line h).
Proof. unfold header_line, store_header, take_content_type, take_boundary, take_length, take_ip, take_session, take_cookie. steps. Qed.
#[export] Hint Resolve ends_header_line : ends.
Lemma header_line_stream h h' : header_line h = Ok h' -> hs_stream h' = hs_stream h.
Proof.
  unfold header_line. intros E. repeat match type of E with bind ?x _ = _ => destruct x as [?|]; cbn [bind] in E; [|discriminate] | context [let '(_, _) := ?p in _] => destruct p end. now injection E as <-.
Qed.
Lemma ends_header_loop k : forall n h, (0 < n -> (length (hs_stream h) < k)%nat) -> ends (header_loop k n h).
Proof.
  induction k as [|k IH]; intros n h H; cbn [header_loop]; (destruct (Z.ltb_spec 0 n) as [P|]; [|steps]); specialize (H P); [lia|].
  do 2 (apply ends_bind; auto with ends; intros [] _; [steps|]). apply ends_bind; auto with ends. intros h1 E1. apply header_line_stream in E1. rewrite E1.
  apply ends_bind; auto with ends. intros ((n', b'), s') E2. apply get_line_consumes in E2 as (A & B). apply IH. cbn [hs_stream]. lia.
Qed.
Lemma ends_word_scan k : forall b j, ends (word_scan k b j).
Proof. induction k as [|k IH]; intros; cbn [word_scan]; steps. Qed.
Lemma ends_url_scan k : forall b j, ends (url_scan k b j).
Proof. induction k as [|k IH]; intros; cbn [url_scan]; steps. Qed.
Lemma ends_skip_space k : forall b j, 1024 <= Z.of_nat k + j -> ends (skip_space k b j).
Proof.
  induction k as [|k IH]; intros b j H; cbn [skip_space]; apply ends_bind; auto with ends; intros c _; (destruct (_ && (j <? 1024)) eqn:E; [|steps]).
  - lia.
  - apply IH. lia.
Qed.
#[export] Hint Resolve ends_word_scan ends_url_scan : ends.
Lemma ends_request_line b : ends (parse_request_line b).
Proof. unfold parse_request_line. steps. Qed.
#[export] Hint Resolve ends_request_line : ends.
Lemma word_scan_ge k : forall b j w j', word_scan k b j = Ok (w, j') -> j <= j'.
Proof.
  induction k as [|k IH]; intros b j w j'; cbn [word_scan]; (destruct (rd b j) as [c|]; cbn [bind]; [|discriminate]); (destruct (isspace c); [intros [= _ <-]; lia|]).
  - intros [= _ <-]. lia.
  - destruct (word_scan k b (j + 1)) as [(l, j1)|] eqn:E; cbn [bind]; [|discriminate]. intros [= _ <-]. apply IH in E. lia.
Qed.
Lemma request_line_ge b rl m j : parse_request_line b = Ok (rl, m, j) -> 0 <= j.
Proof.
  unfold parse_request_line. destruct (cstr b) as [l|]; cbn [bind]; [|discriminate]. destruct (wr _ _ _) as [x|]; cbn [bind]; [|discriminate]. destruct (cstr x) as [y|]; cbn [bind]; [|discriminate].
  destruct (word_scan 254 b 0) as [(w, j')|] eqn:E; cbn [bind]; [|discriminate]. apply word_scan_ge in E.
  destruct (write_at _ _ _) as [z|]; cbn [bind]; [|discriminate]. destruct (cstr z) as [u|]; cbn [bind]; [|discriminate]. intros [= _ _ <-]. exact E.
Qed.
Lemma ends_parse_url b j : 0 <= j -> ends (parse_url b j).
Proof. intros H. unfold parse_url. steps. apply ends_skip_space. lia. Qed.
Lemma ends_accept v f t s p st : ends (accept_request v f t s p st).
Proof.
  unfold accept_request. apply ends_bind; [unfold new_request; steps|]. intros r0 _. apply ends_bind; auto with ends. intros ((n1, b), s1) _.
  apply ends_bind; auto with ends. intros ((rl, m), j) Ej. apply request_line_ge in Ej. cbv zeta. apply ends_bind; auto with ends. intros ok _.
  destruct (negb ok); [steps|]. apply ends_bind; [now apply ends_parse_url|]. intros url _. apply ends_bind; auto with ends. intros (ad, t1) _.
  destruct (negb ad); [steps|]. apply ends_bind; auto with ends. intros b1 _. apply ends_bind; auto with ends. intros ((n, b2), s2) El.
  apply get_line_consumes in El as (A & B). apply ends_bind; [apply ends_header_loop; exact B|]. intros h _. apply ends_bind; auto with ends. intros (path, query) _.
  apply ends_bind; auto with ends. intros api _. steps.
Qed.
(** ** log.c, main.c *)
Lemma ends_logger s l t : ends (logger s l t).
Proof. unfold logger. steps. Qed.
Lemma ends_main f a : ends (main_options f a).
Proof. unfold main_options. assert (M : forall l c, ends (main_loop f c l)); [|steps]. induction l as [|o l IH]; intros c; cbn [main_loop]; steps. Qed.

(** ** More steps change nothing *)
Lemma ends_next A B (x : outcome A) (f : A -> outcome B) a : ends (bind x f) -> x = Ok a -> ends (f a).
Proof. intros H ->. exact H. Qed.
Lemma ends_first A B (x : outcome A) (f : A -> outcome B) : ends (bind x f) -> ends x.
Proof. unfold ends. destruct x; cbn; congruence. Qed.
Lemma bind_same A B (x : outcome A) (f g : A -> outcome B) : (forall a, x = Ok a -> f a = g a) -> bind x f = bind x g.
Proof. destruct x; cbn; auto. Qed.
Ltac next1 H :=
  match goal with
  | |- bind ?x _ = bind ?x _ => let E := fresh in apply bind_same; intros ? E; apply (fun h => ends_next _ _ _ _ _ h E) in H; cbv beta in H; clear E
  | |- bind _ _ = bind _ _ => apply ends_first in H; f_equal
  | |- (if ?c then _ else _) = _ => destruct c
  | |- (match ?x with _ => _ end) = _ => destruct x
  | |- ?x = ?x => reflexivity
  end.
Ltac next H := repeat next1 H; try (elim H; reflexivity).
Lemma more_rtrim k : forall i c b, ends (rtrim_loop k i c b) -> rtrim_loop (S k) i c b = rtrim_loop k i c b.
Proof.
  induction k as [|k IH]; intros i c b H; [cbn [rtrim_loop] in H |- *; cbv zeta in H |- *; next H|]. revert IH. generalize (S k) at 1 2 as m. intros m IH.
  cbn [rtrim_loop] in H |- *; cbv zeta in H |- *. next H; now apply IH.
Qed.
Lemma more_md5 k : forall d o n, ends (md5_feed k d o n) -> md5_feed (S k) d o n = md5_feed k d o n.
Proof.
  induction k as [|k IH]; intros d o n H; [cbn [md5_feed] in H |- *; cbv zeta in H |- *; next H|]. revert IH. generalize (S k) at 1 2 as m. intros m IH.
  cbn [md5_feed] in H |- *; cbv zeta in H |- *. next H; now apply IH.
Qed.
Lemma more_split k : forall n d s, ends (split_loop k n d s) -> split_loop (S k) n d s = split_loop k n d s.
Proof.
  induction k as [|k IH]; intros n d s H; [cbn [split_loop] in H |- *; cbv zeta in H |- *; next H|]. revert IH. generalize (S k) at 1 2 as m. intros m IH.
  cbn [split_loop] in H |- *; cbv zeta in H |- *. next H; now apply IH.
Qed.
Lemma more_multi k : forall i s, ends (multi_loop k i s) -> multi_loop (S k) i s = multi_loop k i s.
Proof.
  induction k as [|k IH]; intros i s H; [cbn [multi_loop] in H |- *; cbv zeta in H |- *; next H|]. revert IH. generalize (S k) at 1 2 as m. intros m IH.
  cbn [multi_loop] in H |- *; cbv zeta in H |- *. next H; now apply IH.
Qed.
Lemma more_parse k : forall p fl s, ends (parse_loop k p fl s) -> parse_loop (S k) p fl s = parse_loop k p fl s.
Proof.
  induction k as [|k IH]; intros p fl s H; [cbn [parse_loop] in H |- *; cbv zeta in H |- *; next H|]. revert IH. generalize (S k) at 1 2 as m. intros m IH.
  cbn [parse_loop] in H |- *; cbv zeta in H |- *. next H; now apply IH.
Qed.
Lemma more_stream k : forall s n r, ends (stream_loop k s n r) -> stream_loop (S k) s n r = stream_loop k s n r.
Proof.
  induction k as [|k IH]; intros s n r H; [cbn [stream_loop] in H |- *; cbv zeta in H |- *; next H|]. revert IH. generalize (S k) at 1 2 as m. intros m IH.
  cbn [stream_loop] in H |- *; cbv zeta in H |- *. next H; now apply IH.
Qed.
Lemma more_brace k : forall b i, ends (brace_scan k b i) -> brace_scan (S k) b i = brace_scan k b i.
Proof.
  induction k as [|k IH]; intros b i H; [cbn [brace_scan] in H |- *; cbv zeta in H |- *; next H|]. revert IH. generalize (S k) at 1 2 as m. intros m IH.
  cbn [brace_scan] in H |- *; cbv zeta in H |- *. next H; now apply IH.
Qed.
Lemma more_limits k : forall n p s, ends (limits_loop k n p s) -> limits_loop (S k) n p s = limits_loop k n p s.
Proof.
  induction k as [|k IH]; intros n p s H; [cbn [limits_loop] in H |- *; cbv zeta in H |- *; next H|]. revert IH. generalize (S k) at 1 2 as m. intros m IH.
  cbn [limits_loop] in H |- *; cbv zeta in H |- *. next H; now apply IH.
Qed.
Lemma more_multipart k : forall e f form tp tf bnd n ptr, ends (multipart_loop k e f form tp tf bnd n ptr) -> multipart_loop (S k) e f form tp tf bnd n ptr = multipart_loop k e f form tp tf bnd n ptr.
Proof.
  induction k as [|k IH]; intros e f form tp tf bnd n ptr H; [cbn [multipart_loop] in H |- *; cbv zeta in H |- *; next H|]. revert IH. generalize (S k) at 1 2 as m. intros m IH.
  cbn [multipart_loop] in H |- *; cbv zeta in H |- *. next H; now apply IH.
Qed.
Lemma more_skip k : forall b j, ends (skip_space k b j) -> skip_space (S k) b j = skip_space k b j.
Proof.
  induction k as [|k IH]; intros b j H; [cbn [skip_space] in H |- *; cbv zeta in H |- *; next H|]. revert IH. generalize (S k) at 1 2 as m. intros m IH.
  cbn [skip_space] in H |- *; cbv zeta in H |- *. next H; now apply IH.
Qed.
Lemma more_header k : forall n h, ends (header_loop k n h) -> header_loop (S k) n h = header_loop k n h.
Proof.
  induction k as [|k IH]; intros n h H; [cbn [header_loop] in H |- *; cbv zeta in H |- *; next H|]. revert IH. generalize (S k) at 1 2 as m. intros m IH.
  cbn [header_loop] in H |- *; cbv zeta in H |- *. next H; now apply IH.
Qed.
Lemma more_any A (loop : nat -> outcome A) k : (forall j, ends (loop j) -> loop (S j) = loop j) -> ends (loop k) -> forall j, (k <= j)%nat -> loop j = loop k.
Proof. intros H E j L. induction L as [|j L IH]; [reflexivity|]. rewrite H; [exact IH|]. now rewrite IH. Qed.
