-Q theories Verif
theories/Alloc_model.v
theories/Alloc_proofs.v
theories/Altstack_model.v
theories/Altstack_proofs.v
theories/Altstack_spec.v
theories/Barrier_model.v
theories/Barrier_proofs.v
theories/Barrier_proofs2.v
theories/Base.v
theories/Brk_model.v
theories/Brk_proofs.v
theories/Brk_spec.v
theories/C11threads_model.v
theories/C11threads_proofs.v
theories/C11threads_spec.v
theories/Cal_asc.v
theories/Cal_model.v
theories/Cal_proofs.v
theories/Cal_spec.v
theories/Cmsg_model.v
theories/Cmsg_proofs.v
theories/Cmsg_spec.v
theories/Conc.v
theories/Cond_model.v
theories/Cond_proofs.v
theories/Crypt_model.v
theories/Crypt_proofs.v
theories/Crypt_spec.v
theories/Ctype_model.v
theories/Ctype_proofs.v
theories/Ctype_spec.v
theories/Cvec_model.v
theories/Cvec_proofs.v
theories/Cvec_spec.v
theories/Cwd_model.v
theories/Cwd_proofs.v
theories/Cwd_spec.v
theories/Diag_model.v
theories/Diag_proofs.v
theories/Diag_spec.v
theories/Dirent_model.v
theories/Dirent_proofs.v
theories/Dirent_spec.v
theories/Dns_model.v
theories/Dns_proofs.v
theories/Dns_spec.v
theories/Dtls_model.v
theories/Dtls_proofs.v
theories/Dtls_spec.v
theories/Env_model.v
theories/Env_proofs.v
theories/Env_spec.v
theories/Epoll_model.v
theories/Epoll_proofs.v
theories/Epoll_spec.v
theories/Exec_model.v
theories/Exec_proofs.v
theories/Exec_spec.v
theories/Exit_model.v
theories/Exit_proofs.v
theories/Falloc_model.v
theories/Falloc_proofs.v
theories/Falloc_spec.v
theories/Fdtbl_model.v
theories/Fdtbl_proofs.v
theories/Fdtbl_spec.v
theories/Filetimes_model.v
theories/Filetimes_proofs.v
theories/Filetimes_spec.v
theories/Fmtmsg_model.v
theories/Fmtmsg_proofs.v
theories/Fmtmsg_spec.v
theories/Fnmatch_model.v
theories/Fnmatch_proofs.v
theories/Fnmatch_spec.v
theories/Fopen_model.v
theories/Fopen_proofs.v
theories/Fopen_spec.v
theories/Fpos_model.v
theories/Fpos_proofs.v
theories/Fpos_spec.v
theories/Gai_model.v
theories/Gai_proofs.v
theories/Gai_spec.v
theories/Getdents_model.v
theories/Getdents_proofs.v
theories/Getdents_spec.v
theories/Getgroups_model.v
theories/Getgroups_proofs.v
theories/Getgroups_spec.v
theories/Getopt_model.v
theories/Getopt_proofs.v
theories/Getopt_spec.v
theories/Glob_model.v
theories/Glob_proofs.v
theories/Glob_spec.v
theories/Gni_proofs.v
theories/Grp_model.v
theories/Grp_proofs.v
theories/Grp_spec.v
theories/Hooks_model.v
theories/Hooks_proofs.v
theories/Hooks_spec.v
theories/Inet_class_proofs.v
theories/Inet_class_spec.v
theories/Inet_model.v
theories/Inet_proofs.v
theories/Inet_spec.v
theories/Istream_flags.v
theories/Istream_model.v
theories/Istream_proofs.v
theories/Istream_spec.v
theories/Langinfo_model.v
theories/Langinfo_proofs.v
theories/Langinfo_spec.v
theories/Ld_model.v
theories/Ld_proofs.v
theories/Ld_spec.v
theories/Libgen_model.v
theories/Libgen_proofs.v
theories/Libgen_spec.v
theories/Locale_model.v
theories/Locale_proofs.v
theories/Locale_spec.v
theories/Mktemp_model.v
theories/Mktemp_proofs.v
theories/Mktemp_spec.v
theories/Mman_model.v
theories/Mman_proofs.v
theories/Mutex_model.v
theories/Mutex_proofs.v
theories/Names_model.v
theories/Names_proofs.v
theories/Names_spec.v
theories/Netdb_model.v
theories/Netdb_proofs.v
theories/Netdb_spec.v
theories/Numeral.v
theories/Once_model.v
theories/Once_proofs.v
theories/Ostream_model.v
theories/Ostream_proofs.v
theories/Ostream_spec.v
theories/Pattr_model.v
theories/Pattr_proofs.v
theories/Pattr_spec.v
theories/Pmutex_model.v
theories/Pmutex_proofs.v
theories/Pmutex_proofs2.v
theories/Popen_model.v
theories/Popen_proofs.v
theories/Popen_spec.v
theories/Printf_model.v
theories/Printf_proofs.v
theories/Printf_spec.v
theories/Priority_model.v
theories/Priority_proofs.v
theories/Prop_Alloc.v
theories/Prop_Altstack.v
theories/Prop_Asprintf.v
theories/Prop_Barrier.v
theories/Prop_Brk.v
theories/Prop_C11threads.v
theories/Prop_Cal.v
theories/Prop_Cmsg.v
theories/Prop_Cond.v
theories/Prop_Crypt.v
theories/Prop_Ctype.v
theories/Prop_Cwd.v
theories/Prop_Diag.v
theories/Prop_Dirent.v
theories/Prop_Dns.v
theories/Prop_Dtls.v
theories/Prop_Env.v
theories/Prop_Epoll.v
theories/Prop_Exec.v
theories/Prop_Exit.v
theories/Prop_Falloc.v
theories/Prop_Fdtbl.v
theories/Prop_Filetimes.v
theories/Prop_Fmtmsg.v
theories/Prop_Fnmatch.v
theories/Prop_Fopen.v
theories/Prop_Fpos.v
theories/Prop_Gai.v
theories/Prop_Getdents.v
theories/Prop_Getgroups.v
theories/Prop_Getopt.v
theories/Prop_Glob.v
theories/Prop_Grp.v
theories/Prop_Hooks.v
theories/Prop_Inet.v
theories/Prop_Inet_class.v
theories/Prop_Istream.v
theories/Prop_Langinfo.v
theories/Prop_Ld.v
theories/Prop_Libgen.v
theories/Prop_Locale.v
theories/Prop_Mktemp.v
theories/Prop_Mman.v
theories/Prop_Mutex.v
theories/Prop_Names.v
theories/Prop_Netdb.v
theories/Prop_Once.v
theories/Prop_Ostream.v
theories/Prop_Pattr.v
theories/Prop_Pmutex.v
theories/Prop_Popen.v
theories/Prop_Printf.v
theories/Prop_Priority.v
theories/Prop_Pty.v
theories/Prop_Pwd.v
theories/Prop_Rand.v
theories/Prop_Randc.v
theories/Prop_Reclock.v
theories/Prop_Regex.v
theories/Prop_Relr.v
theories/Prop_Ring.v
theories/Prop_Rwlock.v
theories/Prop_Scanf.v
theories/Prop_Select.v
theories/Prop_Semaphore.v
theories/Prop_Shadow.v
theories/Prop_Sigaction.v
theories/Prop_Sigbit.v
theories/Prop_Sigentry.v
theories/Prop_Signal.v
theories/Prop_Sigother.v
theories/Prop_Sigpick.v
theories/Prop_Sigwait.v
theories/Prop_Sleep.v
theories/Prop_Sockaddr.v
theories/Prop_Sockmsg.v
theories/Prop_Sort.v
theories/Prop_Spawn.v
theories/Prop_Spin.v
theories/Prop_Start.v
theories/Prop_Strfmon.v
theories/Prop_String.v
theories/Prop_Strto.v
theories/Prop_Strtod.v
theories/Prop_Subopt.v
theories/Prop_Swab.v
theories/Prop_Symlink.v
theories/Prop_Syslog.v
theories/Prop_Sysvshm.v
theories/Prop_Termios.v
theories/Prop_Thread.v
theories/Prop_Time.v
theories/Prop_Timer.v
theories/Prop_Timespec.v
theories/Prop_Tls.v
theories/Prop_Tz.v
theories/Prop_Ugid.v
theories/Prop_Uio.v
theories/Prop_Uname.v
theories/Prop_Upperfd.v
theories/Prop_Utf8.v
theories/Prop_Waitpid.v
theories/Prop_Waitval.v
theories/Prop_Wcs.v
theories/Prop_Wcsto.v
theories/Prop_Wctype.v
theories/Prop_Wstdio.v
theories/Pty_model.v
theories/Pty_proofs.v
theories/Pty_spec.v
theories/Pwd_model.v
theories/Pwd_proofs.v
theories/Pwd_spec.v
theories/Rand_float.v
theories/Rand_model.v
theories/Rand_proofs.v
theories/Rand_spec.v
theories/Randc_model.v
theories/Randc_proofs.v
theories/Randc_spec.v
theories/Reclock_model.v
theories/Reclock_proofs.v
theories/Reclock_spec.v
theories/Regex_model.v
theories/Regex_proofs.v
theories/Relr_model.v
theories/Relr_proofs.v
theories/Relr_spec.v
theories/Ring_model.v
theories/Ring_proofs.v
theories/Ring_spec.v
theories/Rwlock_model.v
theories/Rwlock_proofs.v
theories/Rwlock_spec.v
theories/Scanf_model.v
theories/Scanf_proofs.v
theories/Scanf_spec.v
theories/Select_model.v
theories/Select_proofs.v
theories/Select_spec.v
theories/Semaphore_model.v
theories/Semaphore_proofs.v
theories/Shadow_model.v
theories/Shadow_proofs.v
theories/Shadow_spec.v
theories/Sigaction_model.v
theories/Sigaction_proofs.v
theories/Sigaction_spec.v
theories/Sigbit_model.v
theories/Sigbit_spec.v
theories/Sigentry_model.v
theories/Sigentry_spec.v
theories/Signal_model.v
theories/Signal_proofs.v
theories/Signal_spec.v
theories/Sigother_model.v
theories/Sigother_spec.v
theories/Sigpick_model.v
theories/Sigpick_spec.v
theories/Sigwait_model.v
theories/Sigwait_proofs.v
theories/Sigwait_spec.v
theories/Sleep_model.v
theories/Sleep_proofs.v
theories/Sockaddr_model.v
theories/Sockaddr_proofs.v
theories/Sockaddr_spec.v
theories/Sockmsg_model.v
theories/Sockmsg_proofs.v
theories/Sockmsg_spec.v
theories/Sort_model.v
theories/Sort_proofs.v
theories/Sort_spec.v
theories/Spawn_model.v
theories/Spawn_proofs.v
theories/Spawn_spec.v
theories/Spin_model.v
theories/Spin_proofs.v
theories/Start_model.v
theories/Start_proofs.v
theories/Start_spec.v
theories/Strfmon_model.v
theories/Strfmon_proofs.v
theories/Strfmon_spec.v
theories/String_model.v
theories/String_proofs.v
theories/String_proofs2.v
theories/String_spec.v
theories/Strto_model.v
theories/Strto_proofs.v
theories/Strto_proofs2.v
theories/Strto_spec.v
theories/Strtod_float.v
theories/Strtod_model.v
theories/Strtod_proofs.v
theories/Strtod_proofs2.v
theories/Strtod_spec.v
theories/Subopt_model.v
theories/Subopt_proofs.v
theories/Subopt_spec.v
theories/Swab_model.v
theories/Swab_proofs.v
theories/Symlink_model.v
theories/Symlink_proofs.v
theories/Symlink_spec.v
theories/Syslog_model.v
theories/Syslog_proofs.v
theories/Syslog_spec.v
theories/Sysvshm_model.v
theories/Sysvshm_proofs.v
theories/Sysvshm_spec.v
theories/Termios_model.v
theories/Termios_proofs.v
theories/Termios_spec.v
theories/Thread_model.v
theories/Thread_proofs.v
theories/Thread_spec.v
theories/Time_model.v
theories/Time_proofs.v
theories/Time_proofs2.v
theories/Time_proofs3.v
theories/Time_spec.v
theories/Timer_model.v
theories/Timer_proofs.v
theories/Timer_spec.v
theories/Timespec_model.v
theories/Timespec_proofs.v
theories/Tls_model.v
theories/Tls_proofs.v
theories/Tls_spec.v
theories/Tz_model.v
theories/Tz_proofs.v
theories/Tz_spec.v
theories/Ugid_model.v
theories/Ugid_proofs.v
theories/Ugid_spec.v
theories/Uio_model.v
theories/Uio_proofs.v
theories/Uio_spec.v
theories/Uname_model.v
theories/Uname_proofs.v
theories/Uname_spec.v
theories/Upperfd_model.v
theories/Upperfd_proofs.v
theories/Upperfd_proofs2.v
theories/Upperfd_proofs3.v
theories/Upperfd_proofs4.v
theories/Upperfd_spec.v
theories/Utf8_model.v
theories/Utf8_proofs.v
theories/Utf8_proofs2.v
theories/Utf8_spec.v
theories/Waitpid_model.v
theories/Waitpid_proofs.v
theories/Waitpid_spec.v
theories/Waituntil_model.v
theories/Waitval_model.v
theories/Waitval_proofs.v
theories/Wcs_model.v
theories/Wcs_proofs.v
theories/Wcs_spec.v
theories/Wcsto_model.v
theories/Wcsto_proofs.v
theories/Wctype_model.v
theories/Wctype_proofs.v
theories/Wctype_proofs2.v
theories/Wctype_proofs3.v
theories/Wctype_spec.v
theories/Wctype_tables.v
theories/Word_mem.v
theories/Writer_model.v
theories/Writer_proofs.v
theories/Wstdio_model.v
theories/Wstdio_proofs.v
theories/Wstdio_proofs2.v
theories/Wstdio_spec.v
