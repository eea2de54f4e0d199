(** * Tables of function names used by normalization (data copied from the source). *)
From Verif Require Import Base.

(* lib/normalize_hash.gperf:28-187: function name and source file patterns.
   gperf turns the table into in_word_set, an exact lookup by name (the generated hash is trusted) *)
Definition removable_table : list (str * list str) :=
  [ (L "may_core_dump", [L "os_unix.c"]);
    (L "mch_exit", [L "os_unix.c"]);
    (L "os::abort", [L "os_linux.cpp"]);
    (L "VMError::report_and_die", [L "vmError.cpp"]);
    (L "JVM_handle_linux_signal", [L "os_linux_x86.cpp"]);
    (L "gerror_to_dbus_error_message", [L "dbus-gobject.c"]);
    (L "dbus_g_method_return_error", [L "dbus-gobject.c"]);
    (L "message_queue_dispatch", [L "dbus-gmain.c"]);
    (L "_dbus_abort", [L "dbus-sysdeps.c"; L "libdbus"]);
    (L "dbus_connection_dispatch", [L "dbus-connection.c"; L "libdbus"]);
    (L "gdk_x_error", [L "gdkmain-x11.c"]);
    (L "gdk_threads_dispatch", [L "gdk.c"]);
    (L "gdk_event_dispatch", [L "gdkevents-x11.c"; L "gdkevents.c"]);
    (L "gdk_event_source_dispatch", [L "gdkeventsource.c"]);
    (L "_gdk_x11_display_error_event", [L "gdkdisplay-x11.c"; L "libgdk"]);
    (L "g_log", [L "gmessages.c"; L "libglib"]);
    (L "g_logv", [L "gmessages.c"; L "libglib"]);
    (L "g_assertion_message", [L "gtestutils.c"; L "libglib"]);
    (L "g_assertion_message_expr", [L "gtestutils.c"; L "libglib"]);
    (L "g_closure_invoke", [L "gclosure.c"; L "libgobject"]);
    (L "g_free", [L "gmem.c"; L "libglib"]);
    (L "g_type_class_meta_marshal", [L "gclosure.c"; L "libglib"]);
    (L "g_signal_emit_valist", [L "gsignal.c"; L "libgobject"]);
    (L "signal_emit_unlocked_R", [L "gsignal.c"; L "libgobject"]);
    (L "g_signal_emit", [L "gsignal.c"; L "libgobject"]);
    (L "g_idle_dispatch", [L "gmain.c"; L "gutf8.c"]);
    (L "g_object_dispatch_properties_changed", [L "gobject.c"; L "libgobject"]);
    (L "g_object_notify_dispatcher", [L "gobject.c"; L "libgobject"]);
    (L "g_object_unref", [L "gobject.c"; L "libgobject"]);
    (L "g_object_run_dispose", [L "gobject.c"; L "libgobject"]);
    (L "g_object_new", [L "gobject.c"; L "libgobject"]);
    (L "g_object_newv", [L "gobject.c"; L "libgobject"]);
    (L "g_main_context_dispatch", [L "gmain.c"; L "libglib"]);
    (L "g_main_context_iterate", [L "gmain.c"; L "libglib"]);
    (L "g_main_dispatch", [L "gmain.c"; L "libglib"]);
    (L "g_main_loop_run", [L "gmain.c"; L "libglib"]);
    (L "g_timeout_dispatch", [L "gmain.c"; L "libglib"]);
    (L "g_thread_pool_thread_proxy", [L "gthreadpool.c"; L "libglib"]);
    (L "g_thread_create_proxy", [L "gthread.c"; L "libglib"]);
    (L "g_cclosure_marshal_VOID__BOXED", [L "gmarshal.c"; L "libgobject"]);
    (L "g_cclosure_marshal_VOID__VOID", [L "gclosure.c"; L "gmarshal.c"; L "libgobject"]);
    (L "g_object_notify", [L "gobject.c"; L "libgobject"]);
    (L "Glib::exception_handlers_invoke()", [L "libglibmm"]);
    (L "g_signal_handlers_destroy", [L "gsignal.c"; L "libgobject"]);
    (L "g_vasprintf", [L "gprintf.c"; L "libglib"]);
    (L "g_strdup_vprintf", [L "libglib"]);
    (L "g_strdup_printf", [L "libglib"]);
    (L "g_print", [L "libglib"]);
    (L "invalid_closure_notify", [L "gsignal.c"; L "libgobject"]);
    (L "smc_tree_abort", [L "gslice.c"; L "libglib"]);
    (L "g_thread_abort", [L "libglib"]);
    (L "_g_log_abort", [L "gmessages.c"; L "libglib"]);
    (L "g_log_default_handler", [L "gmessages.c"; L "libglib"]);
    (L "g_log_writer_default", [L "gmessages.c"; L "libglib"]);
    (L "g_log_structured_array", [L "gmessages.c"; L "libglib"]);
    (L "g_log_structured", [L "gmessages.c"; L "libglib"]);
    (L "default_log_handler", [L "main.c"]);
    (L "g_signal_emit_by_name", [L "gsignal.c"; L "libgobject"]);
    (L "__gnu_cxx::__verbose_terminate_handler", [L "vterminate.cc"]);
    (L "__cxxabiv1::__terminate", [L "eh_terminate.cc"]);
    (L "std::terminate", [L "eh_terminate.cc"]);
    (L "__cxxabiv1::__cxa_throw", [L "eh_throw.cc"]);
    (L "__cxxabiv1::__cxa_rethrow", [L "eh_throw.cc"]);
    (L "__verbose_terminate_handler", [L "vterminate.cc"]);
    (L "__cxxabiv1::__cxa_pure_virtual", [L "pure.cc"]);
    (L "__kernel_vsyscall", [L ""]);
    (L "_XReply", [L "xcb_io.c"]);
    (L "_XError", [L "XlibInt.c"]);
    (L "XSync", [L "Sync.c"]);
    (L "process_responses", [L "xcb_io.c"]);
    (L "OsSigHandler", [L "osinit.c"]);
    (L "FatalError", [L "log.c"]);
    (L "AbortServer", [L "log.c"]);
    (L "AbortDDX", [L "xf86Init.c"]);
    (L "ddxGiveUp", [L "xf86Init.c"]);
    (L "OsAbort", [L "utils.c"]);
    (L "handle_error", [L "xcb_io.c"; L "libX11"]);
    (L "_XIOError", [L "XlibInt.c"; L "libX11"]);
    (L "_XEventsQueued", [L "xcb_io.c"; L "libX11"]);
    (L "handle_response", [L "xcb_io.c"; L "libX11"]);
    (L "_start", [L ""]);
    (L "__libc_start_main", [L "libc"]);
    (L "clone", [L "clone.S"; L "libc"]);
    (L "poll", [L "libc"]);
    (L "_IO_new_fclose", [L "iofclose.c"; L "libc"]);
    (L "_IO_vfprintf_internal", [L "vfprintf.c"; L "libc"]);
    (L "_IO_default_xsputn", [L "genops.c"; L "libc"]);
    (L "_IO_wdefault_xsputn", [L "wgenops.c"; L "libc"]);
    (L "__libc_message", [L "libc_fatal.c"; L "libc"]);
    (L "start_thread", [L "pthread_create.c"; L "libpthread"]);
    (L "assert_cursor", [L "intel_display.c"]);
    (L "assert_device_not_suspended", [L "intel_uncore.c"]);
    (L "assert_pipe", [L "intel_display.c"]);
    (L "assert_plane", [L "intel_display.c"]);
    (L "assert_transcoder_disabled", [L "intel_display.c"]);
    (L "btrfs_assert_delayed_root_empty", [L "delayed-inode.c"; L "btrfs"]);
    (L "_cogl_set_error", [L "cogl-error.c"; L "libcogl"]);
    (L "defaultCrashHandler", [L "kcrash.cpp"; L "libKF5Crash"]);
    (L "_dl_signal_error", [L "dl-error.c"; L "ld-linux"]);
    (L "error_dialog_response_cb", [L ""]);
    (L "do_warn", [L "_warnings.c"; L "libpython"]);
    (L "QMessageLogger::fatal(char const*, ...) const", [L ""]);
    (L "nsProfileLock::FatalSignalHandler(int, siginfo_t*, void*)", [L ""]);
    (L "qt_message_output", [L "qglobal.cpp"; L "libQtCore"]);
    (L "qt_message_output(QtMsgType, char const*)", [L ""]);
    (L "signalHandler(int, siginfo_t*, void*)", [L ""]);
    (L "FatalSignalHandler", [L "nsProfileLock.cpp"; L "libxul"]);
    (L "Foam::error::abort()", [L ""]);
    (L "JS_AbortIfWrongThread", [L "libmozjs"]);
    (L "Crash::defaultCrashHandler(int)", [L "libkdeui"; L "libKF5Crash"]);
    (L "Py_FatalError", [L "pythonrun.c"; L "libpython"]);
    (L "__btrfs_abort_transaction", [L "btrfs"]);
    (L "assert_pch_hdmi_disabled", [L ""]);
    (L "assert_pll", [L ""]);
    (L "core::system::abort()", [L ""]);
    (L "ddd_assert_fail", [L "assert.C"]);
    (L "debug_dma_assert_idle", [L ""]);
    (L "error_handler", [L ""]);
    (L "fatal_error_signal", [L ""]);
    (L "fatal_handler", [L "signal.c"; L "libfreerdp"]);
    (L "gpf_notice", [L ""]);
    (L "log", [L ""]);
    (L "_log", [L ""]);
    (L "log_assert_failed", [L ""]);
    (L "mozalloc_abort", [L "mozalloc_abort.cpp"; L "libmozalloc"]);
    (L "mozalloc_abort(char const*)", [L "libmozalloc"; L "content-container"; L "plugin-container"]);
    (L "note_interrupt", [L "spurious.c"; L "vmlinux"]);
    (L "print_bad_pte", [L "memory.c"; L "vmlinux"]);
    (L "print_oops_end_marker", [L "panic.c"; L "vmlinux"]);
    (L "printk", [L "printk.c"; L "vmlinux"]);
    (L "qupzilla_signal_handler", [L "main.cpp"; L "qupzilla"]);
    (L "rb_bug", [L "error.c"; L "libruby"]);
    (L "sighandler", [L ""]);
    (L "signalHandler(int)", [L ""]);
    (L "signal_abort", [L "signal.c"]);
    (L "signal_handler", [L ""]);
    (L "sys_abort", [L "error.c"; L "libgfortran"]);
    (L "terminate_due_to_signal", [L "emacs.c"; L "emacs"]);
    (L "wl_log", [L "wayland-util.c"]);
    (L "display_protocol_error", [L "wayland-client.c"]);
    (L "display_handle_error", [L "wayland-client.c"]);
    (L "x_io_error", [L "libmutter"; L "meta-xwayland.c"]);
    (L "__ioremap_calle", [L "ioremap.c"]);
    (L "ioremap_nocache", [L "ioremap.c"]);
    (L "wpa_msg", [L "wpa_debug.c"]);
    (L "js::gc::FinalizeArenas(js::FreeOp*, js::gc::ArenaHeader**, js::gc::ArenaList&, js::gc::AllocKind, js::SliceBudget&)", [L ""]);
    (L "js::Shape::finalize(js::FreeOp*)", [L ""]);
    (L "WTF::StringImpl::endsWith(char const*, unsigned int, bool) const", [L ""]);
    (L "mozilla::plugins::child::_invokedefault(_NPP*, NPObject*, _NPVariant const*, unsigned int, _NPVariant*)", [L ""]);
    (L "xitk_signal_handler", [L "xitk.c"; L "xine"]);
    (L "dump_gjs_stack_on_signal_handler", [L "main.c"]);
    (L "meta_run", [L "libmutter"; L "main.c"]) ].

(* lib/normalize.c:66-104 is_removable_glibc_with_above: name and file patterns *)
Definition above_table : list (str * list str) :=
  [ (L "__assert_fail", [L ""]);
    (L "__assert_fail_base", [L ""]);
    (L "__chk_fail", [L ""]);
    (L "__longjmp_chk", [L ""]);
    (L "__malloc_assert", [L ""]);
    (L "__strcat_chk", [L ""]);
    (L "__strcpy_chk", [L ""]);
    (L "__strncpy_chk", [L ""]);
    (L "__vsnprintf_chk", [L ""]);
    (L "___vsnprintf_chk", [L ""]);
    (L "__snprintf_chk", [L ""]);
    (L "___snprintf_chk", [L ""]);
    (L "__vasprintf_chk", [L ""]);
    (L "__vsprintf_chk", [L ""]);
    (L "___sprintf_chk", [L ""]);
    (L "__fwprintf_chk", [L ""]);
    (L "__asprintf_chk", [L ""]);
    (L "___printf_chk", [L ""]);
    (L "___fprintf_chk", [L ""]);
    (L "__vswprintf_chk", [L ""]);
    (L "malloc_consolidate", [L "malloc.c"; L "libc"]);
    (L "malloc_printerr", [L "malloc.c"; L "libc"]);
    (L "_int_malloc", [L "malloc.c"; L "libc"]);
    (L "_int_free", [L "malloc.c"; L "libc"]);
    (L "_int_realloc", [L "malloc.c"; L "libc"]);
    (L "_int_memalign", [L "malloc.c"]);
    (L "__libc_free", [L "malloc.c"]);
    (L "__libc_malloc", [L "malloc.c"]);
    (L "__libc_memalign", [L "malloc.c"]);
    (L "__libc_realloc", [L "malloc.c"]);
    (L "__posix_memalign", [L "malloc.c"]);
    (L "__libc_calloc", [L "malloc.c"]);
    (L "__libc_fatal", [L "libc"]) ].

(* lib/normalize.c:122-143 the functions passed to NORMALIZE_ARCH_SPECIFIC *)
Definition arch_functions : list str :=
  [ L "memchr";
    L "memcmp";
    L "memcpy";
    L "memmove";
    L "memset";
    L "rawmemchr";
    L "strcasecmp";
    L "strcasecmp_l";
    L "strcat";
    L "strchr";
    L "strchrnul";
    L "strcmp";
    L "strcpy";
    L "strcspn";
    L "strlen";
    L "strncmp";
    L "strncpy";
    L "strpbrk";
    L "strrchr";
    L "strspn";
    L "strstr";
    L "strtok" ].

(* lib/normalize.c:168-183 sr_gdb_is_exit_frame *)
Definition gdb_exit_table : list (str * list str) :=
  [ (L "__run_exit_handlers", [L "exit.c"]);
    (L "raise", [L "pt-raise.c"; L "libc.so"; L "libc-"; L "libpthread.so"; L "raise.c"]);
    (L "__GI_raise", [L "raise.c"]);
    (L "exit", [L "exit.c"]);
    (L "abort", [L "abort.c"; L "libc.so"; L "libc-"]);
    (L "__GI_abort", [L "abort.c"]);
    (L "__chk_fail", [L "chk_fail.c"; L "libc.so"]);
    (L "__stack_chk_fail", [L "stack_chk_fail.c"; L "libc.so"]);
    (L "do_exit", [L "exit.c"]);
    (L "kill", [L "syscall-template.S"]) ].

(* lib/core_thread.c:151-165 sr_core_thread_is_exit_frame *)
Definition core_exit_table : list (str * list str) :=
  [ (L "__run_exit_handlers", []);
    (L "raise", [L "libc.so"; L "libc-"; L "libpthread.so"]);
    (L "__GI_raise", []);
    (L "exit", []);
    (L "abort", [L "libc.so"; L "libc-"]);
    (L "__GI_abort", []);
    (L "__chk_fail", [L "libc.so"]);
    (L "__stack_chk_fail", [L "libc.so"]);
    (L "kill", []) ].

(* lib/koops_stacktrace.c:839-855 *)
Definition koops_blacklist : list str :=
  [ L "do_softirq";
    L "do_vfs_ioctl";
    L "dump_stack";
    L "flush_kthread_worker";
    L "gs_change";
    L "irq_exit";
    L "kernel_thread_helper";
    L "kthread";
    L "process_one_work";
    L "system_call_fastpath";
    L "warn_slowpath_common";
    L "warn_slowpath_fmt";
    L "warn_slowpath_fmt_taint";
    L "warn_slowpath_null";
    L "worker_thread" ].
