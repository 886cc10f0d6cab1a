# Formal model of alipay/sofa-bolt-python in Rocq (Coq 8.16.1)

## 1. What this is

`rocq/theories` holds an executable Gallina model of the Python code in `/repo`, and theorems about it.
Nothing of `/repo` is executed: the tie between model and code is the reading of the source. Every
definition that models code carries a comment with file and lines; every simplification is stated there.

File kinds:

* `PyBase`, `PyDict`, `Utf8`, `Struct`, `PyInt` - the parts of Python the code relies on
  (bytes, exceptions as values, insertion-ordered dict, strict UTF-8, `struct`, `int(str)`/`str(int)`).
* `M_*.v` - model of one part of the code. Definitions only.
* `L_*.v` - lemmas about a model (proofs).
* `S_*.v` - small specifications written without the model's helpers.
* `P_*.v` - the property theorems only, named after the property (`C07_...`), each closed by an
  `exact`/short proof, each with `Print Assumptions` beneath, with `Example`s showing that the
  hypotheses are met by concrete non-trivial cases.

* `X_RepoTests.v` - the repository's own unit tests (`tests/`), evaluated in the model with `vm_compute`, among them two frames
  captured from other implementations: a check of the model against what the authors expect of the code. No property
  depends on it.

Naming: `Cnn_..._refuted` proves that the code (model) violates the full property, with a concrete
witness; `Cnn_..._partial` is a true part of a property that does not hold (or was not proved) in full.

## 2. Trusted base

* Coq's kernel (coqc 8.16.1) and its `vm_compute`.
* `Print Assumptions` of every property theorem: see section 5.
* The reading of the Python source, and the Python/asyncio semantics listed in section 4.

## 3. Plan per property

| Id | Modelled by | How it is proved |
|----|-------------|------------------|
| C01, C02 | `M_Package` (constructor, `to_stream`, `from_stream`) over `Struct`, `Utf8`, `PyDict` | algebraic round trip: `unpack (pack v) = v` for every format, header round trip, composition |
| C03 | same; spec `S_Wire` gives the offsets of the documented diagram | unfold the packing; big-endian lemma |
| C04 | same; spec of representability in `S_Wire` | case analysis of `validate` and `pack` |
| C05 | same; spec: relational description of a well-formed frame | decode succeeds iff the relation holds; error otherwise is `DecodeError` |
| C06 | same | lengths are read from the fixed part; induction over the frame list |
| C07, C08 | `M_SofaHeader` (`_bytes_to_str`, `from_bytes`, `to_bytes`, `__len__`) | induction; fuel adequacy = termination |
| C09 | C01/C02 + size lemma (re-encoding never grows the header) | induction on the parsed string list |
| C10 | `Utf8` (strict encoder/decoder) | per-length-class arithmetic, both directions |
| C11 | `M_Package` with a mutable header object (op machine) | invariant over operation sequences |
| C12 | `M_RequestId`: the iterator state machine of `cycle(chain(range, range))` | simulation by `(start+n) mod 2^31`; number theory |
| C13 | `M_Trace` (`build_header`, `RpcTraceContext.expand`, `extract`) | round trip on dictionaries; the general statement is false for baggage named `prefix` etc.: refuted + partial |
| C14, C18 | `M_Trace` heap of span contexts | invariant over operation sequences |
| C15 | `M_RpcId` + `PyInt` | printing/parsing of decimals, split/join |
| C16 | heap of rpc-id objects with parent links | child-only trees: invariant; with follows-from: refuted by witness |
| C17 | `M_RpcId` (format string) | fixed-width decomposition of the concatenation |
| C19 | `M_Trace.start_span` | refuted; partial: what is recorded |
| C20-C22 | `M_Mesh` (ImmutableValueDict, `_get_address`, subscribe/unsubscribe) | op machine, refinement to "explicit route or mesh" |
| C23-C25 | `M_Mesh` with an oracle for server answers | op machine over answer sequences |
| C26, C27 | `M_Lru` | refinement to a list ordered by last use; permutation invariant |
| C28, C34 | `M_PoolManager` over `M_Lru` and `M_ConnPool` | invariant over op sequences |
| C29-C33 | `M_ConnPool`: sequential op machine with remote drops; `M_ConnRace`: interleaving machine for `_new_conn` | invariants; witnesses for the violations |
| C35-C39 | `M_SyncClient` (select/recv loop driven by a schedule; `_raw_invoke`; pools) | induction over schedules; divergence shown for all fuel |
| C40-C43, C46-C48 | `M_AioClient`: coroutine-granularity interleaving machine with byte-level connections | invariants over all schedules; witnesses |
| C44 | heartbeat coroutine over the same machine | all executions with a conforming mesh stop after one heartbeat |
| C45 | both clients' `invoke_oneway` | computation over all inputs |
| C49-C57 | `M_AioServer`: connection handler + dispatch tasks + executor jobs, all schedules | invariants over all schedules; witnesses |
| C58 | `M_SockServer` (class-level dict shared by handlers) | op machine; refuted + partial |
| C59, C60 | `M_SockServer` (`_readexactly`, `handle`) driven by chunks | induction over chunks; divergence for all fuel |
| C61 | composition of the above | rewriting with C01/C02/C13/C50/C59 |
| C62-C64 | `M_SockServer` | the handler function run on the whole input |
| C65, C66 | `M_AioClient`, ghost record of all writes | invariant over all schedules; witness |
| C67, C68 | `M_System`: the client, one server handler per connection, FIFO byte streams between them | invariant (each side has received a prefix of what the other wrote) over all schedules, then C06, C40, C49, C56, C65 |
| C69-C73 | `M_Front`: the entry points and their futures on top of `M_System` | invariant relating each future to its coroutine, then C67; `forever` (C43) |
| C74 | `M_AioClient` | invariant: a cancelled reader consumes nothing |
| C75-C78 | `M_PoolThreads`: any number of threads in `get_conn`, `put_conn` and `close` of one pool | invariants over all interleavings (each connection in one place, the lock has an owner); a measure that every effective step lowers; witnesses |
| C79, C80 | `M_SyncSystem`: a call of the synchronous client, and a server (threaded or asyncio) at the end of each connection it opened; by C39 no connection carries bytes of two calls | what the server received is a prefix of the one frame; C06, C36, C56, C59, C62 |
| C81 | `M_Package` | C03 applied to the factory methods |
| C82-C84 | `M_LruThreads`: the methods as programs of single accesses, interleaved; an RLock | simulation by the sequential container (invariant: what remains of the call holding the lock, run at once, gives the sequential result); structural induction on programs for termination; witnesses |
| C85 | `M_System`, schedules without failures | invariants of both sides (every frame read has been claimed by its call, every request has a job), read off in a state in which no step of the programs or the network changes anything; witnesses |
| C86 | `M_Front` over `M_System`; `M_SyncClient` | every write is the encoding of the request of a call or heartbeat (C65, C68); C81; the contents of `build_header` |
| C87 | `M_System` | a lexicographic measure: progress of the coroutines, bytes to the servers, bytes to parse, server tasks and jobs, bytes to the client, bytes to read |
| C88, C89 | `M_Listener`: any number of connections of `M_AioServer`, one registry, a work queue and 30 workers | invariant: every waiting call is in the queue, calls are queued in the order they are asked for; counting; every connection is a run of `M_AioServer` |
| C90-C93 | `M_Threads`: four small machines, a step is one access to what is shared | invariants over all schedules; C91 also a measure (every step that changes something lowers it) |
| C94 | `M_SyncTime`: the receive loop with a clock; the arrival time of every byte and the time of every step of the client are arbitrary | the timed loop is a run of the loop of C35-C37; each round reads a byte or waits until the deadline |
| C95 | `M_Net`: any number of clients (`M_AioClient`) and listeners (`M_Listener`), joined by the network of `M_System` | each client's part of a run is a run of `M_System`, each listener's part one of `M_Listener`; C65-C69 and C88 then carry over |
| C96 | `M_Deploy`: `M_Net` with any number of synchronous calls (`M_SyncClient`, taken apart into steps) and threads of threaded listeners (`M_SockServer`) | invariant: every connection of a synchronous call has an end of its own that no other call and no asyncio client has, what arrived there is a part of what was written, what comes back a part of what was sent; then C79/C80 per call, and every step is a step of `M_Net` or leaves it alone |
| C97 | `M_Lifecycle`: `run_forever` and `shutdown` as small steps, with `serve_forever`/`shutdown` of `socketserver` and `Server.close` of asyncio | invariant: one thread serves, the event is set exactly when it has returned, a request to stop is pending or it is past its loop; measures for ending and for serving |
| C98 | `M_PoolThreads` | invariant: connections that are open and free, lent or on their way, plus those counted and not yet made, are at most `num_connections`; refutation: a round of two threads that adds a connection and leaves the counter, repeated |
| C99 | `M_AioSock`: an asyncio client (`M_AioClient`) whose connections end in threads of a threaded listener (`M_SockServer`) | as C67: streams are prefixes of what the other side wrote, a thread reads the first write on its connection, a consumed frame is the one frame its thread sent |
| C100 | `M_CallTree`: tracers of several processes (`M_Trace`), a call takes a context through `build_header`, a frame and `extract`; a record of what was made from what | growth of objects and texts; every recorded edge keeps the items and extends the ids; children of one context have different numbers; induction over paths |
| C101 | `M_SockConn`: one socket (queue, end, closed), calls of `recvexactly` one after another, errors and closing at any time; `sendall` against any sequence of room in the buffers | what was taken, held and waits is the stream; induction over rounds |
| C102 | `M_World`: `M_Deploy` (without asyncio clients) with any number of asyncio clients (`M_AioClient`) whose connections end at asyncio listeners or at threads of threaded listeners | invariant: what each end has received is a prefix of what the client wrote on that connection, and the reverse; no step of the rest touches an end of a client; units of the stream are writes of calls |
| C103-C104 | `M_SyncClient`: `fetch`, `give_back` over the models of pool manager and pool | the pool a lookup builds is computed for every pattern of sockets; induction over the history |
| C105 | `M_PoolStream`: the pool of `M_ConnPool` with the bytes on every connection, each marked with the borrower that asked for it | invariant: what can be read on a lent, open connection is for its borrower |
| C106 | `M_DictOps`: the changing methods of the three dict subclasses that override `__setitem__` | case analysis over methods, induction over histories |
| C107 | `M_MgrThreads`: the manager of `M_LruThreads` with one `M_PoolThreads` machine per pool; a call that disposes of a pool runs its close() step by step | invariant of the product, invariants of the parts |
| C108 | `M_MgrThreads` | witness; few addresses never evict |
| C109 | `M_MgrThreads` | invariant of the hung state; standstill by the standstill theorems of the parts; lexicographic order for termination |
| C110 | `M_Lifecycle` | computation of the second stop; invariant on the pending request, then a measure on the steps left before the next connection is taken |
| C111 | `M_Span` | equality is equality of the parts; the text determines parts without dots (C15) |
| C112 | `M_Span` | case analysis on the arguments, then C14 |
| C113 | `M_Span` | induction on the history from its end |
| C114 | `M_Listener` | invariant: all workers stay with their methods, so nothing is taken; progress: one of 30 running methods waits for nothing, induction on the queue |
| C115 | `M_AioServer` | invariant: the reader is closed, or waits for bytes, or writes an answer; a measure (bytes not yet parsed plus a rank) bounds its steps |
| C116 | `M_AioClient` | invariants: a given up connection stays given up; a read task cancelled before its first run never closes; a measure (unread bytes plus a rank) for the others |
| C117 | `M_Deploy` | invariant: a call that has not been disturbed and has ended has read a whole reply (`ends_ok`); explicit four-step schedule for `can_answer` |
| C118 | `M_Callback` | simulation by `M_Front`; invariant of the blocked call; frame lemma for the client while the loop is busy |
| C119 | `M_Exit` | invariant: what a coroutine gets was raised while it waited; simulation by `M_Listener` without the steps of the coroutines hit; frame lemma for worker steps |
| C120 | `M_Singleton` | invariant on who holds which object; invariant of calls that do not overlap |
| C121 | `M_Net` | lexicographic measure over all clients and listeners (with the executor's queue), each step lowers it or changes nothing; at rest each client's run of `M_System` (C95) is settled, so C85 applies |
| C122 | `M_Callback` | invariant of the ended loop; frame lemmas of C118 for the steps that are not the loop's; the callback that runs has been called |
| C123 | `M_Exit` | invariant of the coroutine whose method raised StopIteration; the steps of C53 on one connection of the listener |
| C124 | `M_Deploy` | lexicographic measure extending C121's over calls, threads and connections; at rest everything written has arrived and been read, so C117 and, through the steps of one connection (`conn_traced`), C85's server lemmas apply |
| C125 | `M_Publish`: the listeners of a process over their lives, on top of `M_Mesh` | the latest accepted post about an interface is found among the posts of the last call, which name each registered interface once; invariants for the registry, the listeners and the origin of publications |
| C126 | `M_AioServer` with times, and `M_SyncTime` | the coroutine of the request is followed from place to place: made when the handler has read the frame, dispatched, waiting, holding an answer, written; each stay is bounded by the lag or the timer |
| C127 | `M_PoolThreads` | the number is at most the open connections plus what the threads at each place have counted and not made or closed and not yet uncounted; the refutation runs two threads through three lost decrements and shows that the state it reaches is closed under all steps |
| C128 | `M_Deploy` | an invariant of a call's position: while it sends without a connection no connection is its own, and an error it has ended with is a step of the run, a refusal, or the judgement of the first frame that came back; that frame is a reply of the listener at the other end because what came back is a prefix of what that wrote |
| C129 | `M_AioClient`, `M_World` | an invariant of the call's position: while it is sending, its id is registered or a reply with it was read too early; while it waits and is woken, its reply is there or was an error; in the world, every frame a client has read was written at the other end |
| C130 | `M_World`, `M_Deploy`, `M_Trace` | what extraction makes of a carrier does not depend on the tracer and stays as the tracer grows; each job was submitted with the context extracted from its request; a request that arrives was built for a call of the client |
| C131 | `M_Service`, `M_AioServer`, `M_SockServer` | the registry holds only the given classes; each job was submitted when the lookup found its name; calling what the lookup finds besides methods gives TypeError, None or an object that is not bytes |
| C132 | `M_Objects` | one invariant over the steps: each request has looked up the registration in force then, is recorded at most once, and its object, which no other request has, differs from the constructed one by its own assignments |
| C133 | `M_Lifetime` | invariant: what a call refers to was opened by itself; open connections are referred to (collection), so ownership and the shape of the references at each point of the call give closing and the bound; what is referred to stays open unless its own call closes it |
| C134 | `M_World` | a rank (calls not yet sent, what asyncio clients still have to do, bytes on their way to servers, what listeners still have to do, bytes on their way back, bytes not yet read), ordered lexicographically, falls with every step that changes anything; a state in which no step lowers it is at rest; synchronous calls: by C124 for the part of the world that is a deployment |
| C135 | `M_World` | every reply an asyncio client has read is for a request that it wrote on that connection, the first one if a thread is at the other end; a request that was replied to has no event left in the client, and its coroutine no longer waits; at rest everything written was read, answered and read again |
| C136 | `M_World` | at rest a connection of an asyncio listener has executed and answered every request that the client wrote on it; every reply with the id of a call answers the request of that call, so the one answer decides how the call ends, and without one it cannot end |
| C137 | `M_PoolLife` | invariants: what can be reached from a user and was not closed is open; what is open is referred to; without errors of the pool every exception in memory is one its caller has |
| C138 | `M_ConnPool.build`, `M_PoolMake` | induction on the number of connections still to make, with the pool determined by those made; then computation of what the exception refers to |
| C139 | `M_PoolThreads` against `M_ConnPool` | simulation: for every place where a thread can be, what one thread would still do from there; each step keeps it, up to the numbering of connections |
| C140 | `M_PoolWith` over `M_PoolManager` | programs that close no pool reduce to histories of C28; closed pools stay closed under every operation, so clearing stops at the first of them |
| C141 | `M_SubThreads` over `M_Mesh` | invariant per interface: where a thread stands between its post and the map says what the agent was told last |
| C142 | `M_AioMake` | invariant over the lines of the constructor; the heartbeat never asks before its sleep is over |
| C143 | `M_MeshWait` over `M_Mesh` | invariant: the lock is held exactly by the thread between its check and its answer; a measure bounds the steps |
| C144 | `M_IdCompare` over `M_Span` | case analysis over classes and values; `==` as the Python language defines it |
| C145 | `M_Register` over `M_Mesh` | induction over what the process does; the documents by cases over given and empty values |
| C146 | `M_ManagerLife` over `M_PoolLife` | invariant: every pool has a history of C137, and is held exactly if a user or a living manager refers to it |
| C147 | `M_LruMap` over `M_Lru` | case analysis per method; induction over the pairs of update and over the calls |
| C148 | `M_ErrText` | case analysis per class of exception; induction over the number of copies |
| C149 | `M_LruFail` over `M_Lru` | the container goes in step with that of C26/C27; what it passes is a part of what that one passes |
| C150 | `M_LruCalls` over `M_Lru` | invariant: the entry of a key is what the one thread that uses it has made of it, and there is room for what threads may still add |

No property is out of reach of a model; where the truth is partly in the runtime (kernel buffers,
asyncio scheduling, wall-clock time), the runtime is an adversarial schedule/oracle and the theorem
quantifies over it.


## 4. Python, asyncio and operating system behaviour assumed

These statements are built into the models; the theorems say nothing about a runtime that differs.

* Language: Python >= 3.8. `asyncio.CancelledError` is a `BaseException`, not an `Exception`;
  `__metaclass__` has no effect; dicts keep insertion order; `str` is a sequence of code points.
* `struct` standard sizes and range checks, strict UTF-8, `int(str)` for an arbitrary Unicode database
  (`PyInt.tables_ok`). The limit on the number of digits in `int(str)` of newer CPython is not modelled.
* asyncio: a coroutine runs from one `await` to the next without interruption; which coroutine runs next is
  arbitrary. Every `await` ends a step of the model even where asyncio would not suspend, so the model has at
  least the real interleavings. `StreamReader.readexactly(n)` returns n bytes as soon as they are buffered,
  raises IncompleteReadError at the end of the stream and the stream's exception after an error.
  `StreamWriter.write` takes all bytes or none; `drain` returns or raises.
* `ThreadPoolExecutor`: one queue of work items, taken in order by at most `max_workers` threads, never fewer than needed;
  a cancelled item is dropped when it is taken; an item that has started cannot be cancelled (`M_Listener`).
* `dict`: single operations are atomic; a `for` loop over a dict raises RuntimeError at the next element, or at the end,
  if the size of the dict differs from that at its start; `x.a += 1` is a load and a store (`M_Threads`).
* Threads: `next()` on an itertools object is atomic (interpreter lock); `x += 1` on an attribute is a load and
  a store (`M_ConnRace`, `M_PoolThreads`); `put`, `get` and `qsize` of a queue.LifoQueue are atomic, and a waiting
  `get` goes on when there is something to take; single operations on an OrderedDict are atomic (keys are strings
  or tuples), an RLock is held by one thread at a time, which may take it again (`M_LruThreads`). The other pool and tracer models are of sequential histories, as
  stated in each file.
* Attributes (`M_Service`): `getattr` finds the variables of the object, the functions of its class and bases and the 26 attributes
  that objects have in CPython 3.8; called with one bytes object, `BaseService.__init__` returns None, `__class__` another object, the comparisons and
  `__subclasshook__` NotImplemented, and all others raise TypeError. Values of variables are taken not to be callable.
* `io.BufferedReader.read(n)` on a blocking socket returns fewer than n bytes at the end of the stream only.
* A socket `send` on a non-blocking socket may accept any part of the data (C38).
* `concurrent.futures.Future` (`M_Front`): settled at most once, by the loop or by `cancel()`; its callbacks run when
  it is settled; `result(timeout)` returns at once if it is settled, otherwise when it is or when the time is over.
  An exception raised by a callback is logged by the future.
* `==`, `!=`, `in` and `hash()` of objects (`M_IdCompare`) are as the Python 3 language reference defines them; `isinstance` looks at the class of the object only.
* `requests.Session.post` without a timeout (`M_MeshWait`) returns or raises when the answer or an error arrives, and not before.
* Exceptions (`M_ErrText`): `str()`, `repr()`, `__reduce__` and `copy.copy` of CPython (3.8 and later); `ValueError` has its own `__init__` and no `__reduce__`; `repr()` of texts and pools is any function.
* Inherited methods of a mapping (`M_LruMap`, `M_LruCalls`): written out from `collections.abc` of CPython (3.8).
* Objects (`M_Lifetime`, `M_PoolLife`, `M_ManagerLife`): CPython frees an object as soon as nothing refers to it, and objects that refer to each other in a cycle
  when the garbage collector runs; an exception refers to the variables of the functions in its traceback.
* TCP delivers a prefix of the bytes written, in order, in arbitrary chunks.
* Time is modelled in `M_SyncTime` only (C94): the clock does not go backwards; `select` returns as soon as the socket is readable and
  reports nothing only if it was not readable until its timeout was over. Elsewhere a timeout is a step (or an argument) that may
  occur at any moment.

## 5. Axioms

`Print Assumptions` stands beneath every theorem of the `P_*.v` files, and prints
`Closed under the global context` for each of them: no theorem uses an axiom, of the standard library or of
anybody else. (Loading the standard library's `ssreflect` support, which `Lia` and others pull in, brings the
parameters of the module type `Coq.ssr.ssrunder.Under_rel` into the environment; a listing of all axioms of the
loaded modules names them, no theorem depends on them.)

No kernel check is switched off; there are no `Admitted`, `Axiom`, `Parameter`, functors, module types or plugins.

## 6. What is modelled and what is not

Modelled, function by function:

| Code | Model |
|------|-------|
| `anthunder/protocol/constants.py`, `_package_base.py`, `_request_pkg.py`, `_response_pkg.py`, `exceptions.py` | `M_Package` |
| `anthunder/protocol/_sofa_header.py` | `M_SofaHeader` (codec), `M_Trace` (`build_header`) |
| `anthunder/protocol/_rpc_trace_context.py` | `M_Trace` |
| `anthunder/command/heartbeat.py`, `fail_response.py` | `M_Package` |
| `anthunder/helpers/request_id.py` | `M_RequestId` |
| `anthunder/helpers/singleton.py` and the classes that name it | `M_Singleton` |
| `mysockpool/pool_manager.py:45-112` with threads, together with its pools | `M_MgrThreads` (the constructor of a pool is one step; a thread is in one operation at a time) |
| the inherited methods of `ImmutableValueDict`, `_ImmutableDict`, `SofaHeader` | `M_DictOps` (that CPython's `dict` methods do not call an overridden `__setitem__` is assumed) |
| `anthunder/helpers/immutable_dict.py`, `anthunder/client/base.py`, `anthunder/mesh/mesh_client.py`, `publish`/`unpublish` of `anthunder/listener/base_listener.py` | `M_Mesh` (one thread), `M_Threads` (assignment to the service map, `startup`, `publish` with threads) |
| `anthunder/client/client.py` | `M_SyncClient`, `M_SyncTime` (`invoke_sync` with a clock) |
| `anthunder/client/aio_client.py` | `M_AioClient` (coroutines), `M_Front` (`invoke_oneway`, `invoke_sync`, `invoke_async`, `callback_wrapper` as seen by their callers), `M_Callback` (callbacks that call the client, in the thread of the loop, or raise) |
| `BaseService` of `anthunder/listener/base_listener.py`, `getattr` and the call of what it finds in both listeners | `M_Service` |
| `register_interface` with arguments, construction of service objects in both listeners | `M_Objects` (constructors are arbitrary functions of their arguments; what the application does to objects it passed as arguments is not modelled) |
| `__del__` of a connection, for the connections of the synchronous client | `M_Lifetime` (an object is freed when nothing refers to it; the references of a call are those of its variables, of its temporary pool and of its traceback) |
| `__del__` of a connection, for users of one pool | `M_PoolLife` (one thread; an object is freed when nothing refers to it, or by the cyclic garbage collector), `M_PoolMake` (constructors that fail) |
| `anthunder/listener/aio_listener.py` (`AioThreadpoolRequestHandler`, `_dispatch`, `_write_msg`, `_handler_connection`) | `M_AioServer` (one connection), `M_Listener` (all connections, the shared registry and executor), `M_Exit` (methods that raise what is not an Exception, or StopIteration) |
| `anthunder/listener/sock_listener.py` | `M_SockServer` |
| `run_forever`, `shutdown` of both listeners, `run_threading` | `M_Lifecycle` |
| `mysockpool/recently_used_container.py` | `M_Lru` (one thread), `M_LruThreads` (any number of threads, with `connection_pool_from_pool_key`) |
| `sendall`, `recvexactly` of `mysockpool/connection.py`, `_wait.py` | `M_SockConn` (the order of calls of one thread; `sendall` of CPython as a loop of `send`) |
| comparisons of `TraceId` and `RpcId`, their use as keys | `M_IdCompare` |
| constructors of clients and listeners of one process, arguments left out | `M_Register` |
| lifetimes of pool managers, their pools and connections | `M_ManagerLife` (one thread) |
| methods that the container of `recently_used_container.py` inherits from `MutableMapping` | `M_LruMap` (one thread) |
| classes of exceptions of the package: making, text, copies | `M_ErrText` |
| `mysockpool/recently_used_container.py` with a `dispose_func` that raises | `M_LruFail` (one thread) |
| `get`, `setdefault`, `pop` of that container by several threads | `M_LruCalls` (one call per thread) |
| calls of `MeshClient` by several threads with posts that are not answered | `M_MeshWait` |
| `mysockpool/connection_pool.py`, `utils.py`, constructor and `close` of `connection.py` | `M_ConnPool` (one thread), `M_PoolThreads` (any number of threads), `M_ConnRace` (`_new_conn` alone), `M_PoolStream` (one thread, with the bytes on the connections) |
| constructor of `AioClient` beside its event loop thread | `M_AioMake` (until the first heartbeat is sent) |
| `subscribe`, `unsubscribe` of `anthunder/client/base.py` by several threads | `M_SubThreads` |
| `mysockpool/pool_manager.py` | `M_PoolManager`, `M_PoolWith` (with statements) |
| `mytracer/_rpc_id.py`, `_trace_id.py` | `M_RpcId` (one thread), `M_Threads` (`_new_child_of` with threads) |
| `mytracer/span_context.py`, `span.py`, `tracer.py`, `helpers.py` | `M_Trace`, `M_Span` (choice of the reference in `start_span`, times of a span, `RpcId.__eq__`) |
| the network between an asyncio client and asyncio servers | `M_System` |
| the network between an asyncio client and threaded listeners | `M_AioSock` |
| contexts passed between processes by calls | `M_CallTree` |
| the constructor of `BaseListener` with `publish`, `unpublish`, `register_interface` of several listeners | `M_Publish` (one thread) |
| the network between a synchronous client and a server of either kind | `M_SyncSystem` |
| the network between any number of asyncio clients and asyncio listeners | `M_Net` |
| the same with any number of synchronous callers and threads of threaded listeners, and other programs that write what they like to connections of their own | `M_Deploy` |
| the same with asyncio clients that also use threaded listeners | `M_World` |

Not modelled:

* exceptions that are not Exceptions, other than CancelledError, in models other than `M_Exit` and `M_Callback`, and in service classes;
  StopIteration raised by a method in models other than `M_Exit`;
* logging; the text of exception messages (an exception is its class) other than in `M_ErrText`;
* the end of the event loop thread of the asyncio client (it is never stopped);
* `__del__` of a connection other than in `M_Lifetime`, `M_PoolLife` and `M_ManagerLife` (pools and managers shared by threads);
* the HTTP client below `MeshClient._post` (an oracle answers each post);
* tracing operations done by user services while the server runs;
* `__repr__` and other members no property refers to; `setup.py`, the demos and the tests.
