# coreHTTP in Rocq: design and trusted base

Everything under `rocq/theories`.  `properties.jsonl` lists the properties (English), `MANIFEST.json` maps
each to its theorems (`Theorem Cnn_...` in `Props*.v`), `seeded/LOG.jsonl` records the wrong programs the
theorems were tested against.

## 1. Trusted base

* Coq 8.16.1's kernel (incl. the VM used by `vm_compute` in examples and refutations).
* `Print Assumptions` follows every theorem in the `Props*.v` files; each prints
  **"Closed under the global context"**: no axiom is used, not even of the standard library.
* Axioms *present* in library files that get loaded (nothing proved here depends on them), as vcheck lists them:
  `Coq.ssr.ssrunder.Under_rel.Over_rel`, `.Under_rel_from_rel`, `.over_rel`, `.over_rel_done`, `.Under_rel`,
  `.Under_relE`, `.under_rel_done` (fields of a sealed module of the standard library's ssreflect, pulled in by
  `From Coq Require Import Lia/ZArith`).
* No axiom, parameter, functor, module type or switched-off check of our own; sections (if any) are closed.
* That the model says what the C says: every definition in `Model*.v` cites the lines of
  `/repo/source/core_http_client.c` it transcribes.  This correspondence is by reading, not proved.
* That the statements say what the English says: `Spec*.v` are the only other definitions the statements use.

## 2. What is modelled

| File | C code |
|---|---|
| `Base.v` | C vocabulary: bytes, `int32_t`/`uint32_t`/`size_t` arithmetic, memory, `memcpy`/`memmove`/`strncmp`, pointer arithmetic, `assert`, the outside world, the log |
| `ModelRequest.v` | `convertInt32ToAscii`, `httpHeaderStrncpy`, `addHeader`, `addRangeHeader`, `writeRequestLine`, `HTTPClient_InitializeRequestHeaders`, `HTTPClient_AddHeader`, `HTTPClient_AddRangeHeader` |
| `ModelSend.v` | `getZeroTimestampMs`, `HTTPClient_SendHttpData`, `addContentLengthHeader`, `HTTPClient_SendHttpHeaders`, `sendHttpBody`, `sendHttpRequest` |
| `ModelResponse.v` | `processCompleteHeader`, the eight llhttp callbacks, `initializeParsingContextForFirstResponse`, `processLlhttpError`, `parseHttpResponse`, `getFinalResponseStatus`, `HTTPClient_ReceiveAndParseHttpResponse`, `HTTPClient_Send` |
| `ModelTask.v` | every public function once more, as programs that stop after every byte of memory read or written and at every call out of the library (transport, clock, parser, header callback) so that tasks can be interleaved; proved equal to the functions above (`ProofsTask`) |
| `ModelReadHeader.v` | `caseInsensitiveStringCmp`, the three ReadHeader callbacks, `findHeaderInResponse`, `HTTPClient_ReadHeader`, `HTTPClient_strerror` |
| `ModelCallback.v` | the sending and receiving functions again, with functions of the application that write to memory each time they are called |
| `ModelLog.v` | the functions that print texts of the application or the server, compiled with logging (what the printing reads) |
| `ModelRelease.v` | the same functions compiled with NDEBUG (no assertions); the files above are the code with assertions |

That is every function of `core_http_client.c`, with the types and constants of `core_http_client.h` and
`core_http_client_private.h`, and the macros of `core_http_config_defaults.h` as parameters (`config`).

* **Outcomes** `Ret` | `Ub kind` | `AssertFail line` | `More`: undefined behaviour (NULL, out of bounds, signed
  overflow, overlapping `memcpy`, pointer arithmetic outside an object) and a failed `assert` are outcomes of their
  own, so "safe" means neither of them is reachable.  `More` is "still running": loops driven by the environment take fuel.
* **Memory**: a list of blocks; a pointer is a block and an offset; buffers are any sub-ranges of blocks, so
  they may overlap, be equal, or be adjacent wherever a theorem does not say `disjoint`.
* **`size_t`** is `Z` modulo `SZ cfg`, the wrap-around written out wherever the code adds or casts.
* **Transport and clock** (`env`): the successive return values (and, for recv, the bytes stored) are arbitrary
  functions of the call number and the size offered.  Any adaptive transport is, in each execution, one of these, so
  "for all env" is "for all schedules/fragmentations/failure points".  `send_contract`/`recv_contract` are the
  documented contract: not more than was offered.  `recv_faithful`: recv stores exactly what it reports.
* **llhttp** (a submodule, its source is not in `/repo`): an arbitrary state machine `parser` whose `llhttp_execute`
  is a tree of callbacks that sees what each callback returned.  `parser_ok` is its contract: the callback diagram of
  `core_http_client_private.h` l.233-290 (plus pieces, further messages, trailers), spans inside the data given to
  that call, in increasing order.  Theorems "for all P, parser_ok P" hold for every parser of that kind.
  `refparser` (`RefParser.v`) is a byte-at-a-time HTTP/1.1 response parser in Gallina: it witnesses that the contract is
  satisfiable (`refparser_ok`) and is the parser of the end-to-end theorems (C43, C47, C50, ...), whose statements
  speak of the response text (`SpecHttp.v`) and not of a parser.
* **The log** (`tev`): every transport, clock, parser and header-callback call with its data.

### Not modelled
llhttp's own code (see above; llhttp's `HPE_PAUSED_UPGRADE` resume is folded into the errno table); the logging macros (empty by
default) except for the memory that printing their texts reads (`ModelLog.v`); the application's header callback is a logged call that does not write to memory (but see C93, `ModelCallback.v`, for functions of the application
that write, and C79, `ModelTask.v`, for two tasks); the transport's internals; memory shared between threads without synchronisation (the library has no threads and no global state); `HTTP_DO_NOT_USE_CUSTOM_CONFIG`
plumbing; compiler-specific behaviour outside the C standard except the two's-complement `(int32_t)` conversion.

## 3. How the properties are proved

* **Request side** (C01-C10, C39, C51-C55; `SpecRequest`, `SpecExact`, `ProofsRequest*`, `ProofsDecimal`, `ProofsHistory`): one exact outcome
  lemma per function (status, memory, length), histories by induction on the list of calls, C07/C08 against an
  independent line-splitting reader; C54 against an independent reader of whole requests (`server_reads`); C55 by induction
  on the series of calls.
* **Send side** (C11-C18, C46; `SpecSend`, `ProofsSend*`): loop invariant "accepted ++ rest = data" over the log.
* **Receive side** (C19-C33, C40-C42, C44, C45, C56-C59; `SpecResponse`, `SpecExact2`, `ProofsResponse*`, `ProofsIndep`): `view_of` folds the
  log into what the parser said; one invariant (`inv`) relates context, response structure, memory and view and
  is preserved by every callback; `rrun` describes the loop as a relation over logs.  C31: simulation.
* **End to end** (C43, C47, C36, C50; `SpecHttp`, `RefParser`, `RefRun`, `HttpRun`, `ProofsFollow`, `ProofsEnd`, `ProofsReadHttp`):
  the reference parser's run over a well-formed response is computed once and for all, then every fragmentation of
  it gives the same view.
* **ReadHeader, strerror** (C34-C37, C47; `SpecReadHeader`, `ProofsReadHeader`).
* **Any parser** (C43, C50 `_any_parser_…`; `SpecParser`, `ProofsAny`, `PropsAny`, `PropsAnyExchange`): the end-to-end theorems do
  not rest on the reference parser.  `reads_http P` (SpecParser.v) says, in terms of the callbacks `P` makes when it is fed
  pieces of a well-formed response, what a correct HTTP/1.1 parser is; the theorems hold for every such `P`, and
  `C43_reference_parser_reads_http` shows the predicate is met by the reference parser.
* **Keep-alive** (C60; `SpecSession`, `ProofsCount`, `PropsSession`): induction over the list of turns; the receiving side of the
  transport stands after each call exactly behind the pieces of its response (`exchange_takes`).
* **Any use of the interface** (C61, C62; `SpecApi`, `PropsApi`): a transition system whose actions are all calls of the interface and
  arbitrary writes of the application to its own memory; an invariant over all reachable states gives safety, frame and termination
  of every next call.
* **Exact companions** (C63-C66; `PropsExact3`): what the code does in the cases in which C08, C39, C40 and C46 fail, as equivalences.
* **Any data, any cut** (C67, C68; `SpecCut`, `ProofsCut`, `RefCut`, `PropsCut`): what two calls return depends only on the bytes received, not on the
  pieces, for any parser that is itself `cut_free`; the reference parser is proved `cut_free` by comparing it with one that reports each byte
  at once (`crun`).
* **Raw bodies** (C69; `SpecRaw`, `ProofsRaw`, `RefRaw`, `PropsRaw`): as C43, with the do-not-parse-body flag: an arbitrary parser that reads header
  sections (`reads_heads`, proved of the reference parser) and is told to pause at their end.
* **Places** (C70; `SpecPlaces`, `RefPlaces`, `PropsPlaces`): the exact counterpart of the refuted C26. `reads_places` asks of a parser, beyond
  `reads_http`, that the first name is reported at its place and that the last piece reported before the end of the headers is the end of
  the last value (or the beginning of the call, if that is later); the reference parser is proved to meet it by a byte-by-byte tracker
  (`track`) of the three places. From it: pHeaders and headersLen of every well-formed response, in every fragmentation.
* **Blank responses** (C71; `SpecBlank`, `PropsBlank`, with the do-not-parse-body flag `PropsBlankRaw`): the exact counterpart of the refuted C42, for any parser that skips line ends before a
  message and takes anything else for a message or an error (`skips_line_ends`, proved of the reference parser).
* **Sections** (C72; `SpecSections`, `PropsSections`): the exact counterpart of the refuted C34 and C36, for any parser that reports a header
  section's names and values at their places and takes what follows for the next message or an error (`reads_sections`, proved of the
  reference parser by a simulation between states that differ only in what earlier messages left behind).
* **Series** (C73; `SpecSeries`, `RefSeries`, `PropsSeries`): the exact counterpart of the refuted C41. The data are any beginning of the
  concatenation of any number of well-formed responses, in any pieces; the theorem says which of three things happens (they end at the end
  of a response, inside one, or there are none) and what the application gets in each. The contract `reads_series` leaves a parser free to
  refuse data behind a response that announced the end of the connection (llhttp in its strict mode does). For the reference parser the
  contract is proved by running it on each response twice, once from its initial state and once from the state the responses before left it
  in, and relating the two runs byte by byte (`joint`).
* **Buffer** (C74, C75; `SpecBuffer`, `PropsBuffer`): the memory of the response buffer after a call, compared with the concatenation of the
  data the transport stored. The loop invariant `inv` says that the bytes before the body region and behind it are those of the stream, and
  that the arguments of the header callback are `place buf` of the places where the parser's pieces begin. C75_pointers_stay_good (the text is
  still there at return) is proved with a second invariant, `stay`, over the phases of the parser contract: with one header section, headers
  lie before the body, trailers behind the body region. With a second response in the same call the claim is false: C75_case shows a header
  of the second response overwritten by its own body.
* **Clock** (C76; `SpecClock`, `PropsClock`): a relational proof over the model, without any hypothesis: two runs whose clocks differ by a
  constant are in lockstep (`rrel`), function by function from the callbacks up to Send; the readings only enter as 32-bit differences.
* **Memory** (C77; `SpecBuffer`, `ProofsFrame`, `PropsMemory`): C74 says what the response buffer holds where data were received; C77 says what
  all of memory is, as one equation: the memory before, with `put_together` of the received data written at the front of the buffer. `ProofsFrame`
  is the frame half (no byte outside the received ones changes), by induction over the parser's tree and the receive loop. For Send, whose
  request text is written over itself, the equation has the header block written first.
* **Larger buffer** (C78; `SpecGrow`, `PropsGrow`): per call, the only use of bufferLen is the comparison that can return HTTPInsufficientMemory;
  then induction over the history.
* **Tasks** (C79; `ModelTask`, `SpecTask`, `ProofsTask`, `ProofsLocal`, `ProofsLocal2`, `PropsTask`): `ModelTask` gives every function of the
  library as a program that stops after every byte it reads from or writes to memory and at every call out of the library (transport, clock, parser,
  header callback), and goes on in the memory as it is *then*. `ProofsTask` proves that such a program run
  alone is the function of the sequential model; `ProofsLocal*` that it looks only at the memory objects its arguments point to, and changes only
  those its request and response structures point to; C79 then follows for every schedule by induction on it: a task may read what nobody else writes
  (so read-only data may be shared), and anybody may change memory no task reads. What is not modelled: the memory is sequentially consistent
  (a byte written is there at the next step, and writing one byte leaves its neighbours alone); a task's own variables and structures are out of the
  others' reach; llhttp and the transport read the data they are given before they do anything else. `C79_sharing_disturbs` shows two tasks that
  do share a buffer losing a header.
* **Pieces** (C80; `SpecPieces`, `PropsPieces`): HTTPClient_Send is unfolded into the three public calls (an equation between results, for all valid
  arguments with a clock); a list of HTTPClient_SendHttpData calls is handled by induction with the run of one call (C14); the answer is compared with
  C67.
* **Wrong transports** (C81, C82; `SpecOver`, `PropsOver`): all other properties assume that send and recv return at most what they were offered
  (`send_contract`, `recv_contract`). C81: every run with an arbitrary send is compared, by induction on the loop, with the run where a false claim is
  a failure instead; they are equal up to the first false claim, where the assertion of l.1861 fails. C82 is false as stated: the received length is
  checked (l.1993) only after the parser has been shown that many bytes. Proved: such a claim is never taken for an answer.
* **Overlapping arguments** (C83; `PropsAlias`): the other request properties assume arguments apart from the buffer. C83 allows field and value to
  point into the request written so far; the lemmas about `addHeader` only need them apart from the part of the buffer behind the place where the
  new line goes, and a legal text cannot reach the blank line that is overwritten. An example shows what an illegal one (the blank line itself as a
  value) does.
* **How long a call takes** (C84; `SpecTime`, `PropsTime`): `e_time` is the unwrapped time of the n-th clock reading; under `paced E D` (at most D ms
  between readings) an induction over the send loop and over the runs of the receive loop bounds the time since the last progress by T + D, and so the
  duration of a call by the number of transport calls that moved data.  What happens after the last reading (at most one more transport call) is not counted.
* **Answers of HTTPClient_Send** (C86; `PropsWhole`): C50_send_then_receive splits a complete call into sending and `ReceiveAndParseHttpResponse`; C86 states the
  exact receive properties (C56, C58, C59, C67-C75) for `exchanges`, with `0 < recvs tr` (an answer was asked for) where that matters.
* **The width of size_t** (C85; `SpecSize`, `PropsSize`): two configurations that agree in everything but `SZ` (`same_settings`). Request building and sending
  are equal functions of the two (`C85_requests`, `C85_sending`: every modular size computation stays below both moduli); for receiving the twin simulation of C38
  (`ProofsTwin`) is stated for two configurations, and C59/C77 give structure and memory. The response structures are equal but for contentLength
  (`but_for_length`), and equal if the parser's content length fits into both (`C85_receive`, `C85_exchange`). `HTTPClient_ReadHeader` computes no sizes modulo `SZ`.
* **A call that is abandoned** (C87; `SpecAbandon`, `ProofsAbandon`, `PropsAbandon`): uses the interruptible model of C79. `moment p m m1` says that memory holds `m1` at some
  moment of a call running alone. By induction on the program tree, the writes of `AddHeader`/`AddRangeHeader` only ever extend one text written at the end of the open
  request, and those of `InitializeRequestHeaders` stay inside what the complete call writes. The request structure is a value in the model and is updated when the call
  returns; in C headersLen is the last thing `addHeader` stores, and `InitializeRequestHeaders` does not read the old one (hence any `len` in `C87_init_again`). That
  headersLen has to be set back is shown by `C87_add_case`: the call made again without that succeeds and glues the line onto the half-written one.
  That what is left is a *beginning* of the text depends on `memcpy` copying bytes forwards one after the other, as the model of C79 does; C leaves the order open.
* **Requests as texts** (C88; `SpecBuild`, `PropsBuild`): `SpecBuild` is a small machine on texts (what the buffer begins with, headersLen) with one step per call, written without memory, pointers or
  arguments; `asks_for` says which texts a C call asks for. `C88_text_machine`: a series of calls in the model is a run of the machine - statuses, headersLen and the whole memory, failing calls
  included. `C88_every_call`: every series of usable calls asks for something. `C88_only_texts` is a simulation on the machine: two states that agree on the request so far
  stay so, and a first `AskInit` makes any two states agree. `C88_start_over` composes it with C38.
* **Bodies anywhere** (C89; `PropsBody`): `body_sent` is what stands at the body's place in the memory that has the header block in the request buffer (`C89_which_bytes`: byte by byte).
  `C89_body_anywhere` proves the sending half without any condition on where the body lies; `C89_as_elsewhere` is an equality of the two calls as terms, so every theorem about a body that lies apart
  applies; `C89_clear_of_the_line` says when nothing is damaged. The example has a body right behind its request: it goes out as "nten".
* **Slow networks** (C90; `SpecLive`, `PropsLive`): the liveness side of C17/C26. `live_send`, `live_pieces` and `paced` say what the network does; the invariant of the send loop is that the clock
  has advanced by at most c*D since data moved last, c being the number of empty sends since. `live_prompt` derives the hypothesis of `C43_any_parser_every_fragmentation` from the bounds. The example has a
  transport that takes 50 bytes at every third call and up to nine empty reads in a row. `PropsLiveClose` does the same for bodies that last until
  the connection is closed: `rrun_fed_close` follows the loop through the pieces into the silence behind them, and C44 ends it.
* **Size, then file** (C99; `SpecFetch`, `PropsFetch`): `fetch` puts `retry` (C97) and `resume` (C98) one after the other; what C97 says about the response structure (`gives`: the Content-Length modulo the number of
  values of size_t) makes the pieces sum up to the file, the rest is C98. A server that meets the hypotheses is given for every file.
* **Resuming** (C98; `SpecResume`, `PropsResume`): `part` is `download` (C96) that says what is left when a piece fails (`download_part`: the two are the same application otherwise), `resume` the recursion over
  the connections. The lemmas of C96 about one piece give what is kept, sent and received by `part`; induction over the connections the rest. `asked` says what may be sent on which connection.
* **Retrying** (C97; `SpecRetry`, `PropsRetry`): `retry` is the application, a recursion over its connections that uses the model's `history` and `Send`, each `Send` in a world of its own (new transport, clock,
  log). One attempt (`attempt`): C53 builds the whole request whatever an earlier attempt left in structure and buffer, C48 and C50 for the sending and the answer; the setup is kept (`retry_keeps`). What a server reads is `server_reads` (C53);
  a success with less than the whole answer is excluded as in C96. Both applications end (`PropsEnds`): `attempt`/`piece` say that a call returns or is still running, and C49 excludes the second.
* **Download in ranges** (C96; `SpecDownload`, `PropsDownload`): `download` is the application, a recursion over the pieces that uses the model's `history` and `Send`. Safety: `piece` (C01, C48) and the setup is kept
  (`same_outside2`). Never wrong: induction over the pieces with what was sent and delivered before as an accumulator; the server's answers to the requests read so far (`answers`, defined with the independent reader `server_reads` of C53) have
  the data of this exchange as a prefix, and then C50 for any parser, with the three ways a response can fall short (too large, cut, until close) excluded by the 206 and the length. Completion: C50 again, with `exchange_takes`. A file server
  that meets the hypotheses is given for every file (`C96_such_servers_exist`).
* **Logging** (C95; `ModelLog`, `SpecLog`, `ProofsLog`, `PropsLog`): `ModelLog` repeats the functions that print a text, with the reads the printing does: `"%.*s"` reads up to a NUL byte or `(int) len`
  bytes (no bound when that is negative), each byte checked to be in its object and among those the logger may read; `"%s"` with the parser's error reason. The theorems are equalities with the functions without logging. For the receiving half an
  invariant over callbacks (`J`: what the context remembers of a header lies in the buffer before the parser's position), carried through `run_tree`, `parseHttpResponse` and the loop. Three conditions (INT32_MAX, a reason, no empty value) are each shown necessary by
  a call that is undefined behaviour with logging and fine without (`C95_long_text_is_read_beyond_its_end`, `C95_missing_reason_is_logged_as_NULL`, `C95_empty_value_is_logged_as_NULL`).
* **Pipelining** (C94; `SpecPipeline`, `PropsPipeline`): induction over the list of what the application does (`Ask`, `Fetch`). One request is `sendHttpRequest` taken apart into its two calls; one fetch is C43 for any
  parser, which takes exactly its pieces (`receive_takes`) and sends nothing. Between the calls memory is the application's, as in C60.
* **Functions of the application that write to memory** (C93; `ModelCallback`, `SpecCallback`, `ProofsCallback`, `PropsCallback`): `ModelCallback` is the model of the exchange with an `effect` of the application
  applied to memory at every call of the transport, the clock and the header callback (`_k`). A simulation (`wsim`): same counters, log and bytes at the protected places; memory elsewhere changes only as
  the inductive `doing` says. What the library reads is always among the protected places (`C93_receive` needs the response buffer only: the method is looked at before the first call).
  Not covered: functions that change the buffers in use, or call the library again for the same structures.
* **Several responses to one request** (C92; `SpecAgain`, `PropsAgain`): induction over the responses. One call is C43 for any parser (C50 for HTTPClient_Send); it takes exactly its pieces (`receive_takes`), leaves the
  application's fields (C31) and the memory outside the response buffer (C19), so the hypotheses hold again for the next. What the next call takes for the method is in the request buffer: unchanged if the buffers are apart,
  `HTTP` if they begin together. `C92_false_for_head_in_one_buffer` is the witness for HEAD in a shared buffer.
* **Builds without assertions** (C91; `ModelRelease`, `SpecRelease`, `PropsRelease`): `ModelRelease` is the model of the code with NDEBUG: each function that asserts something, or calls one that does,
  written out again without it (`_r`). Arguments of assertions are not evaluated, NULL pointers are used where the C code uses them, and unsigned counters wrap around. `as_asserted` says that calls which
  return or go on are the same; the safety theorems (C05, C48, C20, C61) turn it into equality. `C91_false_send_never_returns` is an equivalence: what returns without assertions returns with them.
  `C91_false_recv_is_believed` is a witness: HTTPSuccess with a byte that was never received.
* **Whole exchanges** (C38, C48-C50; `SpecExchange`, `ProofsTwin`, `ProofsExchange`): C38 is a simulation between two
  runs whose buffers lie anywhere.

Beside each theorem an `Example` (`Cnn_case`) shows a concrete non-trivial instance of its hypotheses.

## 4. Properties that are false of the code

For these the full statement is refuted in Coq (`_refuted`, with a concrete execution), and the largest true part found is
proved (`_partial`); the manifest lists them as *partial*.  What the code does instead, exactly, is stated and proved
as a property of its own further down the list (C51 on).

| | Finding |
|---|---|
| C06 | A rejected `AddHeader` (illegal character) has already overwritten the request's final CRLF with the beginning of the rejected line: the request is corrupted |
| C08 | Method and path are not checked: CRLF in the path injects headers |
| C12 | `SendHttpHeaders` casts the length to `int32_t`: overflow, array overrun or wrong number above 2^31-1 |
| C13 | A second `Send` of the same request appends a second Content-Length line |
| C39 | `size_t` sums wrap: `AddHeader` writes out of bounds for lengths near `SIZE_MAX` |
| C46 | `HTTP_MAX_CONTENT_LENGTH_HEADER_LENGTH` does not count the CRLF |
| C23 | A receive timeout is not reported as `HTTPNetworkError`, although `HTTP_RECV_RETRY_TIMEOUT_MS` is documented to |
| C25 | A folded value (several pieces with a gap) is delivered as the buffer's bytes from its first piece on: wrong text |
| C26 | `headersLen` depends on where the network cuts the end of the headers |
| C28 | Methods beginning with "HEAD" (`HEADX`) are treated as HEAD |
| C30 | With do-not-parse-body a response cut inside its headers is `HTTPSuccess` |
| C31 | `areHeadersComplete` and `contentLength` are not reset: stale values of an earlier response survive |
| C32 | `contentLength` is truncated to `size_t` |
| C34 | `ReadHeader` does not stop at the end of the headers: an absent header gives `HTTPInvalidResponse` if there is a body; a value can come from the body |
| C36 | A trailer that was delivered to the callback is not found by `ReadHeader` |
| C40 | `ReceiveAndParseHttpResponse` with a NULL clock calls it |
| C41 | A second message in the same read overwrites the first one's status code and adds to its headers and body |
| C92 | A HEAD request in the buffer of the response loses its method to the first response: a second response (after 103) is then taken to have a body |
| C42 | `HTTPNoResponse` also when only blank lines were received |
| C45 | The last trailer field is not delivered |
| C82 | If recv claims more than it was offered, the parser is shown memory behind the buffer before the length is checked (send has an assertion for this) |
| C95 | With logging on: an empty header value, or a parser error without a reason, is printed with `%s`/`%.*s` of a NULL pointer; a text of 2^31 bytes or more is read beyond its end (`(int)` of the length is negative) |

## 5. Properties that cannot be expressed in this model
None of the listed ones.  Not attempted because they are about code that is not there: correctness of llhttp itself, of TLS, of
the application's callbacks.
