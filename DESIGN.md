# Formal model of iotivity-lite in Coq 8.16.1

## Layout

* `properties.jsonl` - the properties (C01, C02, ...); generated by `tools/gen_props.py`.
* `rocq/theories/<Area>_Model.v` - executable Gallina model of the C code, function by function,
  each definition citing file and lines in `/repo`.
* `rocq/theories/<Area>_Spec.v` (where the specification is more than a line) - specification
  written without the model's helpers.
* `rocq/theories/<Area>_Proofs.v` - lemmas.
* `rocq/theories/<Area>_Props.v` - only the property theorems (`exact lemma`), the non-vacuity
  examples and `Print Assumptions`.
* `MANIFEST.json` - property -> theorem names and status.
* `seeded/LOG.jsonl` - mutation-testing log.

## Trusted base

* Coq 8.16.1 kernel (and `vm_compute` for closed computations).
* Axioms: none planned; `Print Assumptions` under every property theorem must say
  "Closed under the global context".  Any exception is listed at the end of this file.
  (`coqchk` lists seven entries `Coq.ssr.ssrunder.Under_rel.*` of the standard library's ssr plugin, which is loaded
  with the decision procedures; no theorem depends on them.)
* The reading of the C source: the theorems are about the models.  Each definition cites the lines
  it was read from; simplifications are listed per area below.
* C semantics assumed: 8-bit bytes, two's complement, 64-bit `size_t`, fixed width integers wrap
  as written in the models.  Undefined behaviour (out-of-bounds reads, NULL dereference) is a
  distinct outcome in the models where a property is about it.

## Conventions

* A byte is an `N` below 256; strings are lists of bytes.
* `..._refuted`: the full property is false of the faithful model; the theorem exhibits a witness.
* `..._partial`: only part of the property is proved; the missing part is named.
* Every model that is a state machine has `step : state -> op -> state * out` and the theorems
  quantify over all operation lists.

## Plan per property

| id | what is modelled | how it is proved |
|----|------------------|------------------|
| C01 | option table, option header/int/array serialisers, UDP header, parser loop over a byte list with explicit out-of-bounds outcome | round trip by induction over the sorted option list; parser inverse lemma per option |
| C02 | TCP length encoding, frame size computation, TCP header | arithmetic over the four ranges + the option round trip of C01 |
| C03 | both parsers with `OutOfBounds` as a distinct outcome | expected false: witnesses (`_refuted`), plus safe-input theorem for messages of adequate size |
| C04 | nibble/extended encodings | case analysis over ranges with `lia` |
| C05 | block option setters, encoder, decoder | bit-field arithmetic |
| C06 | array option splitter and in-place merge | induction over segments; trailing separator witness `_refuted` |
| C07 | transaction record, send / timeout / ack steps | invariant over step lists |
| C08 | 25-entry ring of (mid, device) | refinement to list of last 25 keys; witnesses for zero-initialised ring and colliding clients |
| C09 | receive buffer, next offset, handle_block | invariant: buffer prefix equals payload prefix; induction over histories |
| C10 | dispatch_block | concatenation law by induction on block count |
| C11 | store_piv/read_piv | base-256 digits |
| C12 | nonce construction on 13-byte lists | injectivity |
| C13 | 32-entry ring | window theorem; replay witness `_refuted` |
| C14 | SSN, stored SSN, pending dump, crash | invariant on (ssn, stored) histories; multicast witness `_refuted` |
| C15 | option parser with destination sizes | overflow witness `_refuted`, safe part under size guard |
| C16 | encoder / decoder | induction in steps of three bytes; alphabet sweep |
| C17 | printer / parser / generator | finite sweep over hex digits, list induction |
| C18 | hex converters | as C17 |
| C19 | key/value iterator | induction over pairs |
| C20 | list operations on a pointer heap | refinement to sequences |
| C21 | pool bitmap | invariant |
| C22 | handles, offsets, memory array | invariant: regions contiguous; contents preserved |
| C23 | ring buffer with growth | refinement to queue |
| C24 | timer list, next expiration, poll | invariant |
| C25 | callback list, current callback, poll loop | step semantics, witnesses for the two stale-flag defects |
| C26 | the decision function with all inputs as data | case analysis; monotonicity by induction over ACL |
| C27 | ACL list, id generation, decode loop | invariant; witnesses for non-atomic update |
| C28 | pstat, doxm, owners, credentials, pending reset, storage; every operation | outcome of an update by case analysis, invariant by induction over histories |
| C29 | same device, decode of property list | decoder state after each prefix of the payload |
| C30 | credential and role lists, updates, deletions, histories | invariant over histories; effect of one addition as an inductive specification; witnesses for the exceptions |
| C31 | encoder of the credential list | equality of encodings for states equal up to private data |
| C32 | registrations, the observer count, notification of observers | invariant over histories; exact sets after each operation; five `_refuted` |
| C33 | observe sequence numbers over the log of what is sent | invariant linking counters to positions in the log; one `_refuted` by induction to counter 2^23 |
| C34 | Sep_Model: waiting requests, buffer life, allocation failures | invariant over histories against the waiting set; three `_refuted` witnesses |
| C35 | drawing, storing and restoring ETags | invariant over histories with restarts; two `_refuted` |
| C36 | comparison of endpoints | bit lemmas, equivalence with a specification, three `_refuted` |
| C37 | printing and parsing of endpoint texts | induction over groups and digits; RFC 4291 grammar as specification; three `_refuted` |
| C38 | Cli_Model.v | Cli_Proofs.v … Cli7_Proofs.v, Cli_Props.v |
| C39 | CRC64 | GF(2) linearity, table-free bitwise model |
| C40 | `Jp_Model`: print functions with memory, cursor, remaining size and count (size_t), indentation through `Buf_Model`, base64 through `Base64_Model` | relation between printed text and state, composed over the tree; invariant for memory safety; bound on the deficit of the count for the indented mode; grammar of JSON documents as specification |
| C41 | JSON tokenizer and decoder (Jd), encoder with growing buffer and macros (Je) | induction over token text and payload trees; refinement of the encoder to the text of the calls |
| C42 | Repd_Model: decoder over CBOR data items with error and crash outcomes, encoder | relation between items and values, mutual induction |
| C43 | Ea_Model: address list with pool slots, selected pointer, callback log | refinement of a ring with cursor, tour by rotation |
| C44 | Repd_Model: lookup by type and key, typed getters | first-match characterisation |
| C45 | buffer cursor | induction |

| C46 | serialize_message with buffer size | case analysis on the size checks |
| C47 | encoder and decoder of the ACL at tree level | invariant on resource lists (built, irredundant), then induction over entries |
| C48 | encoder and decoder of doxm and pstat, start sequence | computation on typed values, invariant of C28 |
| C49 | encoder and decoder of the credential list | induction over the list with the invariant of C30 |
| C50 | confirmable notifications | arithmetic of the wrap and the C33 invariant |
| C51 | batch ETag and incremental batch discovery | C35 invariant and monotonicity within a run; two `_refuted` |
| C52 | `Tcp_Model.v`: recv loop, header checks, total length, validity check, send loop | induction over the results of recv with an invariant relating bytes read, bytes wanted and the length in the header; refinement to the list of frames |
| C53 | `Tcp_Model.v`: reassembly of decrypted data, buffer shrinking, one reading per record | invariant: bytes held plus bytes to come are the frames to come; induction over records |
| C54 | `Tcp_Model.v`: oscore_is_oscore_message | induction over the options against the RFC 7252 layout |
| C55 | Cloud_Model: encode, decode, initialize, load | roundtrip through the list operations of Ea_*, case analysis on the file |
| C56 | Cloud_Model: set/get timeouts, schedule, schedule_register, attempt, step, run | invariant on (remaining servers, count) with a measure; ring tour by induction |
| C57 | Cloud_Model: redirect | refinement to the ring of Ea_Spec |
| C58 | Cloud_Model: set_tokens, register_response, refresh_response, refresh_delay | lookup characterised by first_text / first_int |
| C64 | Ts_Model | grammar as an inductive relation; parse iff written; format builds a derivation; calendar by 146097-day cycle sweep plus periodicity |
| C65 | Ts_Model | day counting relation; rata die numbers step with tomorrow; fields from the inverse |
| C66 | Ts_Model | floor of instant times hz; composition of C64 |
| C67 | Col_Model: add_link, remove_link, link_by_uri, col_step | Col_Proofs, Col2_Proofs: sortedness and no-dangling invariants over histories |
| C68 | Col_Model: unique_index, instance_uri | Col3_Proofs: order of URIs equals order of numbers; loop invariant |
| C69 | Col_Model: filter_rt, handle (LL, baseline) | Col4_Proofs over the query model; Col6_Proofs |
| C70 | Col_Model: links_loop, entries_loop, handle | Col5_Proofs, Col6_Proofs: induction over nesting and entries |
| C71 | Disc_Model: filter_out, encode_eps, link_of, core_listed, device_links | Disc_Proofs, Disc2_Proofs: the lists as filters; link contents by cases over optional attributes |
| C72 | Disc_Model: sduuid_ok, send, discover | Disc2_Proofs, Disc5_Proofs |
| C73 | Disc_Model: discover, process with Repd_Model: parse | Disc4_Proofs, Disc5_Proofs: written links are read as complete links |
| C74 | Disc_Model: link_attr, links_run, root_links, process | Disc3_Proofs, Disc4_Proofs: induction over attributes and links |
| C75 | `Rd_Model`: `step`, `run` | `Rd3_Proofs`: `step_tracks`, `step_total` |
| C76 | `Rd_Model`: `publish_encode`, `publish_answer`, `step` | `Rd4_Proofs`: `step_posts`; `Rd5_Proofs`: `answer_lists` |
| C77 | `Rd_Model`: `fill`, `delete_single`, `cloud_delete` | `Rd2_Proofs`: `rd_delete_spec`; `Rd4_Proofs`: `step_dels` |
| C78 | `Rd_Model`: `step`; the cloud in `Rd_Spec`: `deliver`, `session` | `Rd6_Proofs`: `exchange_mid`, `calm_mirrors` |
| C79 | `Ael_Model`: `add_event`, `evict`, `create`, `run` | `Ael_Proofs`: `evict_spec`, `add_accepted`, `add_all_latest`, `run_sound` |
| C80 | `Ael_Model`: `dump`, `load`, `decode`, `step` | `Ael2_Proofs`: `reads`, `members_reads` |
| C81 | `Ael_Model`: `encode`, `get_ael`, `decode` | `Ael3_Proofs`: `written_len`, `clock_encode_64` |
| C82 | `Ael_Model`: `denied_entry`, `message_line` | `Ael3_Proofs`: `denied_text`, `message_text` |
| C83 | `Sd_Model`: `sdi_decode`, `sdi_encode`, `sdi_dump`, `load_sdi`, `boot`, `reset` | `Sd_Proofs`, `Sd2_Proofs`: last-value lemmas over the request; invariant `kept` over runs; round trip of the stored form |
| C84 | `Sd_Model`: `sp_decode`, `sp_encode`, `sp_dump`, `load_sp`, `set_profile` | `Sd2_Proofs`: bit mask against the listed identifiers (`sp_decode_spec`, `names_spec`); `sp_reload` |
| C85 | `Pt_Model`: `dev_plgd_time`, `set`, `set_time`, `dump`, `load`, `step` | `Pt_Proofs`: `quiet_step`, `quiet_run` (invariant `good`), `load_on`, `dump_file`; texts from `Ts4_Proofs` |
| C86 | `Pt_Model`: `encode`, `decode`, `on_fetch`, `step` | `Pt_Proofs`: `time_ok`, `lst_ok`, `decode_text`, `decode_nothing` |
| C87 | `Swu_Model`: `decode_request`, `copy`, `execute`, `elapse`, `dump`, `load`, `step` | `Swu_Proofs`: `request_iff`, `copy_updated`; `Swu2_Proofs`: `quiet_some`, `quiet_none`, `start_filed`, `decode_back`; `Swu_Props`: `lives` |
| C88 | `Swu_Model`: `encode`, `notified`, `perform`, `step` | `Swu4_Proofs`: `get_pieces`, `elapse_files`; `Swu_Props`: `notified_spec`, `lives` |
| C89 | `Swu_Model`: `decode_loop`, `validate_data`, `decode_request` | `Swu3_Proofs`: `request_any`, `request_faults`, `request_prefix`; `Swu4_Proofs`: `request_told` |
| C90 | `Rol_Model`: `post`, `free_roles`, `free_for_device`, `step` | `Rol_Proofs`: `apply_grows`, `device_gone`; `Rol2_Proofs`: `step_inv`, `step_roles`, `origin` |
| C91 | `Rol_Model`: `post`, `walk`, `step`; `Cred_Model`: `delete_role`, `encode_roles` | `Rol3_Proofs`: `told_spec`, `delete_one`, `walk_spec`, `accepted`, `walk_perms` |
| C92 | `Net_Model`: `step` | `Net_Proofs`: `wakes_step`, `order_step`; `Net2_Proofs`: `has_step`, `all_delivered`, `loop_measure`, `dead_step` |
| C93 | `Net_Model`: `wake_from`, `step` | `Net_Proofs`: `wake_spec`, `flow_step`; `Net2_Proofs`: `no_stall` |
| C94 | `Ref_Model`: `rstep` | `Ref_Proofs`: `inv_step`, `safe` |
| C95 | `Ntf_Model`: `step` | `Ntf_Proofs`, `Ntf2_Proofs`: `step_ok`, `inv_delete` |
| C96 | `Ntf_Model`: `notify`, `fire` | `Ntf3_Proofs`: `notify_out`, `notify_only`; `Ntf4_Proofs`: `linv_run` |
| C97 | `Ntf_Model`: `process`, `add_ents` | `Ntf5_Proofs`: `gk_reach`; `Ntf6_Proofs`: `fire_exact`, `stirred_run` |
| C98 | `Ses_Model`: `step` | `Ses_Proofs`: `ord_step`, `wakes_step`, `each_step`, `marked_step`, `loop_rest` |
| C99 | `Ses_Model`: `act1`, `dispatch` | `Ses_Proofs`: `dispatch_spec`, `dispatch_ends`, `remove_first_split` |
| C100 | `Crt_Model`: `validate_v1`, `validate_ca`, `validate_end`, `validate_role`, `cn_uuid` | `Crt_Proofs`: `validate_ca_ok`, `validate_end_ok`, `validate_role_ok`, `self_issued_der`, `says_uuid` |
| C101 | `Crt_Model`: `verify1`, `verify`, `search`, `step` | `Crt2_Proofs`: `only`, `only_again`, `admitted`, `inv_run`, `floor`, `never_freed` |
| C102 | `Hs_Model`: `find_psk`, `strip`, `get_psk`, `own_identity` | `Hs_Proofs`: `find_psk_ok`, `psk_known`, `psk_refused`, `psk_only`, `own_identity_stands` |
| C103 | `Hs_Model`: `choose`, `load_chain`, `new_peer`, `add_or_get`, `free_peer` | `Hs_Proofs`: `open_cases`, `inv_run`, `pick_ok`, `pick_none` |
| C104 | `Tlsq_Model`: `step`, `send_message`, `init_connection`, `write_data`, `read_data`, `free_peer`, `drop_events` | `Tlsq_Proofs`: `run_moves`, `moves_total`, `moves_order`; `Tlsq2_Proofs`: `settled_run`; `Tlsq3_Proofs`: `safe_run`, `delivered`, `lost_step` |
| C105 | `Osx_Model.v`: the OSCORE engine of many devices, with client callbacks, transactions and the histories of protected and accepted messages | invariant of the histories, injectivity of nonce and additional data; agreement by following the history back |
| C106 | same | symbolic execution of the two ends in arbitrary states |
| C107 | `Cm_Model.v`: status, tokens, timers, requests and session of the cloud manager with its API calls, deregistration and reset | invariant over all operations; closing a session as a nested run of handlers |
| C108 | same | invariant: tokens, session bookkeeping and progress together |
| C109 | same | a relation between states before and after (reset under way or counted deletion), composed along handlers |
| C110 | same | invariant: the live allocations are a permutation of those reachable from requests and callbacks |
| C111 | same | invariants of unconfigured and of stopped devices |
| C112 | `Dps_Model.v`: manager, five steps, start of the cloud, observer, renewal, session and interface events of the provisioning client | invariant over all operations: the history of events is allowed, the status equals what the history says |
| C113 | same | same invariant |
| C114 | same | invariant: awaiting or finished, with a frame relation for what does not matter |
| C115 | same | invariant of stopped managers |
| C116 | same | shape of reachable states from the history; phases; an invariant of states in which nothing is accepted for the exception |
| C117 | same | induction over the checks |
| C118 | `Dpr_Model.v`: retry counter | invariant; rotation by induction |
| C119 | `Dpr_Model.v`: validation and renewal interval | arithmetic; induction on the remaining time |
| C137 | Con_Model: devices with name, location tag and callback; payloads as lists of properties; the table of locations | case analysis of the scan of a payload against last values asked for; invariants over runs |
| C138 | Tag_Model: the tags of entries and the handling of an answer, on the list and the decoder of Acl_Model | frame and provenance of entries through the decoder; growth of the list under regular answers |
| C139 | Ptag_Model: the tags of credentials and the replacement of certificates, on the credentials and the decoder of Cred_Model | frame and provenance of credentials through the decoder, item by item |
| C140 | Cres_Model: the resource of the cloud configuration, on the configuration of Cloud_Model and the addresses of Ea_Model | case analysis of the request against a specification of its properties; induction over the further servers |
| C141 | Dst_Model: saving and loading the state of the provisioning client, on the addresses of Ea_Model | round trip by induction over the list of addresses on the refinement of the address list in Ea_Proofs; case analysis for any file |
| C135, C136 | Kp_Model: the list of key pairs as handles into memory with allocation and release, the pool without dynamic allocation, files as lists of properties | refinement of a table from devices to keys, invariant over runs; the memory and the storage agree |
| C132, C133, C134 | Msg_Model: the event queue, messages kept by TLS, the handlers of the message buffer, OSCORE, TLS and CoAP processes, dropping of endpoints, a trace of what happens to every message | invariant over runs for ownership and routing; the order of the queue by stages of the way; measure for the draining of the queue |
| C128, C129, C130, C131 | Otm_Model: device structures with handles on the cache, on the list of owned devices or freed, transfer contexts of the three methods and the PIN request, pending requests, discovery of endpoints, local credentials | frame relations for the nested end of transfers; invariant over runs giving the story of each transfer; invariants for memory and for credentials under the stated rules; measure for progress |
| C124, C125, C126, C127 | Obt_Model: known devices with handles, the contexts of the six operations, pending requests, the nested end of operations when a connection closes (fuel with an outcome of its own) | induction over the fuel with a frame relation for closing; invariant over runs giving the story of each operation; separate invariant for memory under the rule for resets; measure for progress |
| C120, C121, C122, C123 | Dhc_Model: reading of hexadecimal text, option parser with bounds and fuel as outcomes, settings on top of the address list of Ea_Model, verification callback over a chain | induction over texts, options and chains; relation between bytes and written options; invariant over histories of settings |
| C59–C63 | `Ri_Model`: resource lists, lookup by URI, interface choice, device filter, header checks, handler call, response code, observation, notification, response type | registry invariant over histories; exact characterisation of `dispatch` by cases |

## Simplifications per area

* OSCORE (`Oscore_*`): keys and AEAD are not modelled; a received request is "authentic" or not as an
  input of the step. Context lookup, HKDF and the storage format of the context are left out.
* CoAP codec (`Coap_*`): build options are a record `cfg`, so every theorem is for all
  combinations. Fields guarded by a bit of `packet->options` are `option`s. The in-place merge of
  Uri-Path/Uri-Query options is modelled on values (the aliasing of buffer and string is not).
  Memory behind a datagram or string is an explicit list, a read past it is an outcome (`P_oob`,
  `S_oob`). Bits of unknown elective options and log output are dropped.
* Transactions (`Trans_*`): message contents are dropped, endpoints are numbers, `log` records each
  message handed to the transport. Client callbacks and observers released on a timeout are not part
  of the state. The event queue is taken to have room. OC_CLOCK_SECOND is a parameter.
* Duplicate detection (`Dedup_*`): the ring buffer with its index; what follows an accepted request is
  outside.
* Block-wise (`Block_*`): message coding is left to the codec model; endpoints in the transfer key are
  numbers. A buffer is the list of bytes written so far, allocation success is an input. The client
  side follows the response buffer of one client callback. Error responses, Size2 and ETag options are
  not modelled.
* Lists (`List_*`): cells and heads are numbers, the heap is a function, 0 is NULL; loops have fuel.
  `oc_list_copy` is left out.
* Pool allocator (`Memb_*`): static pools (a number of blocks given); the heap-backed form is left out,
  as is the buffers-available callback.
* String allocator (`Mmem_*`): the compacting static-memory form; three pools differ only in unit size.
* Event queue (`Evq_*`): slots of the ring are option values so that a read of an unwritten or foreign
  slot is an error; event data is a number. The process layer is not part of this model.
* Event timers (`Etimer_*`): 64-bit clock with wrap; the event queue is the list of C23 with its capacity.
  `oc_etimer_adjust` (no callers) is left out. The clock does not move during a poll.
* Delayed callbacks (`Delay_*`): registrations have names that are never reused (no user code runs while a
  freed registration is still the current one); handlers are arbitrary scripts of interface calls; on_delete
  functions only leave a mark. Periodic observe callbacks are left out.
* Checksum (`Crc_*`): complete.
* Write buffer (`Buf_*`): vsnprintf is given by its result text.
* Payload trees (`Rep_Model`): the attribute tree handlers receive after CBOR decoding; doubles are 64-bit patterns.
* Access control (`Acl_*`): all optional features on; TLS peer, credentials and validity of role
  certificates are inputs; the interface, endpoint and session lookups before the decision are outside.
  The development-only UUID filter (does not compile) is left out. Random identifiers are a given list.
  Asserts are compiled out. The callback given a dangling ACE when a later resource of a payload fails is
  not modelled. Storage is at the level of payload trees.
* Onboarding (`Ob_*`): credentials are the list of their subjects, the access control list is its owner;
  cloud, observers, role certificates, sessions, sdi, sp and collections, which a reset also clears, are
  left out. Updates of owners and credentials are operations with the state conditions of their decoders.
  Credentials and the two owners are taken to be in storage as in memory. OC_PKI and OC_SOFTWARE_UPDATE on.
* Credentials (`Cred_*`): certificate parsing, verification, key pairs and key derivation are inputs of the model
  (`cenv`), as are random numbers and the outcome of each allocation; the role credentials of one client are
  modelled; the type confusion of arrays given as role or authority is left out; OC_CLIENT is off, so that
  presenting roles as a client is not modelled.  Storage is at the level of the property tree.
* Endpoints (`Ep_*`): IPv4, IPv6 and TCP on; Bluetooth addresses and the local address are left out. inet_ntop for IPv6
  is a C library function and modelled after the GNU implementation; strtoul is modelled with leading blanks, sign and
  saturation, 64 bits wide. A host ending in a letter goes to the resolver, which is not modelled. Texts have no
  embedded terminator. The list functions (copy, free) of oc_endpoint.c are not modelled.
- Observers: batch observers and the notifications of the discovery resource and of collections on behalf of their links are in `Ntf_*`. Blockwise buffers, periodic callbacks, the collection check, the response handlers and transaction allocation are inputs. A resource number is not reused after deletion (a reused address could match a dangling registration).
- ETags: clock readings and random draws are inputs of each call. Contents are numbers and the checksum a function; content change and notification are one step; start-up (creation of all resources, loading) is one step. Parsing of the query values (base64, C01, and query scan, C05) is not repeated.
- **Server addresses (Ea)**: the pool is an arbitrary choice of an unused slot or failure; the change callback is taken not to call back into the list; a pointer that is not in the list is taken to be readable memory (`oc_endpoint_addresses_remove` reads `ea->next` before looking it up).
- **Payload decoding (Repd)**: the CBOR library is not in the repository; its iterator is modelled as presenting well-formed data items (tags, nested containers, definite and indefinite length alike). Malformed CBOR bytes and memory exhaustion while decoding are not modelled. Calls of the library outside its documented contract are the outcome `Crash`. What the setters of include/oc_rep.h emit is modelled as one data item per attribute.
- Separate responses (`Sep_*`): clients are numbers; `handle_separate_response_request` is one message out, so its own out-of-memory and blockwise early returns (which drop the client) are not modelled; the pool of requests is an oracle that may refuse.
- Client requests (Cli): pointers are numbers that are never reused, endpoints are numbers compared by equality (their comparison is C36); tokens and message ids are inputs; the C call stack is explicit (a running handler is a frame, its end the event Return), so calls from inside handlers are interleaved freely; time is nondeterministic (a timer may fire whenever it is set); payload parsing is one bit; shutdown (oc_client_cbs_shutdown) is not modelled.
- Printing as JSON (`Jp_*`): the text of a double is a parameter; strings have no zero byte; texts longer than INT_MAX and snprintf errors are not modelled; getters are modelled by when they find the attribute.
- JSON encoder (Je): positions are offsets as the library stores them between calls; the buffer pointer is not NULL and realloc succeeds; only "none", "out of memory" and "other" errors are distinguished; the text of a double is a parameter; raw data and shrinking are not modelled.
- JSON decoder (Jd): the tokenizer is modelled with its callback; allocation succeeds; the pool of representations is unbounded; doubles in text are read as strtoll reads them.
- TCP streams (`Tcp_Model.v`): one connection; the session list, select and locking are left out; what recv returns is an arbitrary list of results (a positive number of bytes, EINTR, error), an exhausted list means the call has not returned; mbedtls_ssl_read is modelled as handing out at most the asked number of bytes of the oldest decrypted record, its errors are left out; oc_allocate_message and realloc do not fail; posting to the CoAP engine does not fail (C23 models the queue).
- Cloud: NULL and empty strings are identified; the status callback has run before a restart; the application does not change the server list during the registration; the storage file is a decoded list of members. Not modelled: login, token-refresh and ping handlers (except which tokens they take over and when), keepalive, the cloud resource, TLS and sessions. Note that oc_cloud_store_dump returns 0 on an encoding error, so the asynchronous writer never reports one.
- Request dispatch (C59–C63): access control (C26, C27, C47), payload decoding (C42), ETags (C35, C39, C51) and the observer list (C32, C33, C50) are separate models and enter here as the results they give. Core resources are a list of distinct URIs. Paths consisting of slashes only are left out (oc_get_collection_by_uri reads past such a path). Block-wise assembly of the request (C09) happens before. The build has OC_SERVER, OC_SECURITY, OC_COLLECTIONS, OC_BLOCK_WISE, OC_TCP, ETags and the JSON encoder.
- Ts: the sums of seconds and offsets are unbounded integers (timestamp_valid adds int64 values; overflow for |sec| near 2^63 is not modelled); the quotients of doubles in oc_clock.c are taken to be cut to the exact integer; the conversions to uint16_t of the year change nothing below year 65535.
- Collections: resources keep their URI, device and types while they live; a link carries the resource it points to. Relations, link parameters, instance numbers, `num_links`, notifications, ETags and the size limit of the encoded payload are left out; the create interface is one call that succeeds or fails; handlers and access control are arbitrary functions. A DELETE handler that frees the resource during the batch is not modelled.
- Disc: IPv4, TCP, security and dynamic allocation are on; the batch interface and /.well-known/core are left out; endpoints carry no scope; tags are their texts; reading a union member of another type is Undefined unless its bytes are zero; the resolver of host names is a parameter.
- Resource directory of the cloud (`Rd_*`): api/cloud/oc_cloud_rd.c and rd_client.c for one device. Addresses of resources are numbers; sending, allocation, the onboarding state and random instances are inputs of a step. A failed assertion and use of a link that was not allocated are the outcome `None`. The cloud of C78 is specification, not code: it gives a resource its instance by its URI, answers each publish request with all its links, and takes an unpublish request without instances for one that removes all.
- Auditable events (`Ael_*`): security/oc_ael.c for one device, with its storage (oc_store.c:442-501) and the two entries the stack itself logs. Sizes of the record and of a pointer are parameters; whether allocation succeeds, the clock and whether the storage takes a write are inputs of a step. The six lines of a denied request are one flat buffer as on the stack; writing beyond it is the outcome `Crash`. The text of an address (OC_SNPRINTFipaddr) and of the roles is given.
- Security domain and profile (`Sd_*`): one device; storage is one value per resource, written by every dump (a failed write is the flag `w = false` of an update); the answer is told apart from the dump, as the code answers first. The other resources that a reset clears are not part of this model.
- Synchronised time (`Pt_*`): the clock of the device is read once per operation and given with it (a failure is `None`); the notification of observers, the sessions opened and closed for a fetch and the interface for ETags are left out; the assertion on the elapsed time and the text of an unknown status are an abort of the process (`None`).
- Software update (`Swu_*`): the clock of the system and the event timers are the list of operations (`Elapse`, `ClockSet`); timers count what has passed, as the monotonic clock of the timers does; the mode of provisioning after a start, the notification of observers and the flag that ignores errors (used by unit tests only) are left out; the functions of the application are only recorded (their result is only logged by the code); that they report back is a notification of its own.
- Roles of sessions (`Rol_*`): a session is the address of its `oc_tls_peer_t`, opened and closed by operations; at most one session per address at a time; allocation of the records of clients succeeds; a record without roles that a refused request leaves behind is not kept; the number in the query of DELETE is given; what the certificates say is the environment of the request, as in `Cred_Model`.
- Hand-over of messages (`Net_*`): sequentially consistent atomics, the mutex makes a critical section one step; dynamic allocation (flow control is compiled in); one network thread per device, TCP and UDP alike; the load and the store of `g_poll_requested` by the event loop are one step (a poll requested between them is the same as one requested before); the signal that ends the sleep of the application's main loop, the asynchronous TCP connect events and the interface flags of the network monitor are left out; the application calls `oc_main_poll` while a poll is requested; posting to the event queue succeeds (it grows with dynamic allocation); the pipe holds all bytes written to it.
- Reference counts (`Ref_*`): who calls `oc_message_add_ref` or `oc_message_unref` has a reference (the rule of the header, not checked against every caller); sequentially consistent atomics.
- Notifications (`Ntf_*`): one device, dynamic allocation that succeeds; a representation is a number (0: empty) and for a collection its links; which notifications are too large for a block is an input; an access policy is a function of client and URI that does not change during a run; the handlers of resources only read; ETags, the observe counter, confirmable messages, retransmission and the removal of observers by resets are in `Obs_*`; the copy of a removed URI into a buffer of OC_MAX_OCF_URI_SIZE bytes without a length check (observe.c:1257-1264) is not modelled, URIs are numbers; the /oic/res representations of non-batch interfaces are opaque.
- Session events (`Ses_*`): as in `Net_*`, accesses are sequentially consistent and critical sections are one step; allocation of the copied endpoint succeeds; `notify_session_end` is set; the delay of the callback is arbitrary and all pending callbacks may fire at any later time the event loop is idle; polls are those of this process and of one unspecified other; what handling a disconnection does to peers and observers is in `Obs_*` and `Rol_*`; freed callbacks of the fixed pool are told apart from live ones by their address, which is not reused during a traversal.
- Certificates (`Crt_*`): parsing and the cryptographic checks of mbedtls are not modelled; a certificate is the record of the fields the code reads, and the faults mbedtls found with it are one bit. mbedtls calls back for the chain from the root to the end entity and stops at the first refusal; extended key usages are checked as `mbedtls_x509_crt_check_extended_key_usage` documents. The application's verification callback is the default one (oc_pki.c:413-452). The addresses of trust anchors are not reused. Certificates of the cloud (verify_cloud_certificate) are not authorised at all by the code and are left out.
- Set-up of secured connections (`Hs_*`): the handshake itself is mbedtls and not modelled; lists of cipher suites are represented by their names, the derivation of the PIN key is an arbitrary function, and loading a certificate chain succeeds if a matching credential exists. Allocation failures are left out. In RFOTM with a method other than just works, PIN and manufacturer certificate the default suites are offered; C103 says nothing about that. The client side's use of the static PSK handed to mbedtls is inside mbedtls and left out.
- Messages to secured peers (`Tlsq_*`): mbedtls is an oracle (every handshake and write may succeed, need more data or fail), the queue of events is never full, the address of a new peer is any free one (the allocator's choice), message contents and received data (recv_q) and the framing over TCP are left out. The assertion of roles is one open request per peer; that it also selects certificate suites for a connection (which then stay selected, see C103) is left out here.
- OSCORE between devices (`Osx_*`): encryption is ideal (a ciphertext is opened by the key, nonce and additional data it was made with, and tells nothing else); a key is what it is derived from; the common IV is any function of the secret into 13 bytes. The inner message is its code, Observe option and the rest as one string; parsing of inner messages (C01, C02) always succeeds. The detection of duplicates by message id (C08) is an arbitrary input. Contexts of one logical device only, set up with distinct sender keys, and not added or removed; sequence numbers survive (C14 has restarts). TCP signals, and the TLS layer below, are left out.
- Cloud manager (`Cm_*`): one device; tokens are present or not, with the lifetime of the access token; retry counters, the choice of the next server (C56), credentials, published resources and the last error are left out. Delays, failures and retries come from the environment; timers fire in any order. Callbacks of the application do nothing. The operational state of the device and the transport of the selected server do not change during a run. Parsing of answers is a success flag, a lifetime and whether it redirects.
- Device provisioning (`Dps_*`, `Dpr_*`): one device with a cloud context; what the client asks its surroundings comes from an environment per operation; payloads are accepted, refused or redirecting; delays and the retry counter are separate (`Dpr_*`); last_error, the status callback, notifications, stored configuration, DHCP and changes of the endpoint through the API are left out. In C114 the closing of an insecure session is taken to be reported. `dps_check_credentials` is a yes or no.
- Dhc_Model: mbedTLS is a table of hash algorithms and, for a chain, the flags per certificate; it calls the callback from the highest depth to the leaf and stops at a failure. Sessions, observers and logging are left out of the settings.
- Obt_Model: one secure endpoint per device; the helper context of switch_dos is one with its request; allocation and sending are inputs; callbacks of the application do not call the tool again; which connections are open when an operation ends is an input. Ownership transfer, discovery, credential and ACL retrieval, group OSCORE, certificate and trust anchor provisioning of oc_obt.c are not modelled. After a use of freed memory the model goes on with the old contents, so that statements about such runs hold up to that point.
- Otm_Model: a device structure is its UUID, the address of its endpoints and the list it is on; handles are never reused; allocation, sending, key derivation and adding a credential have outcomes given as inputs; a local credential is its subject and the flag owner_cred; callbacks of the application do not call the tool again; the side of the device is not part of it. Statements about runs with a use of freed memory hold up to that point.
- Msg_Model: one reference of each message is followed; what OSCORE and TLS do with the contents (protected, opened, kept, written, dropped) are inputs; the queue is the list shown by the area of the event queue, of at most ten events in a static build; OC_SECURITY is on; the processes run (oc_ri.c stops them when the queue is empty).
- Kp_Model: a stored key pair is the list of its properties (the CBOR coding is an area of its own); what mbedtls draws, failures of allocation and of writing, and whether oc_pk_free_key gives up the key are inputs; the storage buffer can be had; reading freed memory and a list tied into a ring are outcomes that end the run.
- Con_Model: a payload is the list of its properties; encoding the response does not fail; the properties added by the baseline interface are not modelled; a request reaches a device that exists.
- Tag_Model: the list and its update are those of Acl_Model, with its simplifications; storing the list afterwards and the states of the provisioning client are not part of it.
- Ptag_Model: the credentials and their update are those of Cred_Model, with its simplifications; closing the sessions and storing the credentials afterwards are not part of it. The certificate signing request that precedes it is not part of it either.
- Cres_Model: what cloud_reset does to the configuration is a function the theorems quantify over (Cm_Model has it); closing the connection, the links of the resource directory and the common properties of the resource are not part of it.
- Dst_Model: the file is the representation that was encoded (CBOR is the subject of other models); writing the file, its size limit and the tag of the storage are not part of it; an address of the provisioning client has a name, not a UUID; an owner that starts with a NUL byte is not distinguished.

## What is not modelled

TLS/DTLS record processing, cryptographic primitives (AES-CCM, HKDF, X.509), sockets, threads, the
Android/Windows/ESP ports, the CBOR byte codec (an external library, absent from the checkout).
