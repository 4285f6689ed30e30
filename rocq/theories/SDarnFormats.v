(** Tables of pydarnio/dmap/superdarn_formats.py: the field groups of the
    SuperDARN file types, copied entry by entry in source order. *)
From Coq Require Import ZArith List String Ascii.
From Verif Require Import Base DmapTypes.
Import ListNotations.
Open Scope string_scope.

(** The code points of a string literal (the keys of the dictionaries in
    superdarn_formats.py:18-503 are such literals). *)
Fixpoint str (s : string) : pystr :=
  match s with
  | EmptyString => []
  | String c s' => Z.of_nat (nat_of_ascii c) :: str s'
  end.

(** A field group: an insertion-ordered dictionary from field names to formats
    (superdarn_formats.py:18-503). *)
Definition group := dict fmt.

(** superdarn_formats.py:18-70 Rawacf.types. *)
Definition rawacf_types : group :=
  [(str "radar.revision.major", Fc); (str "radar.revision.minor", Fc);
   (str "origin.code", Fc); (str "origin.time", Fs);
   (str "origin.command", Fs); (str "cp", Fh); (str "stid", Fh);
   (str "time.yr", Fh); (str "time.mo", Fh); (str "time.dy", Fh);
   (str "time.hr", Fh); (str "time.mt", Fh); (str "time.sc", Fh);
   (str "time.us", Fi); (str "txpow", Fh); (str "nave", Fh);
   (str "atten", Fh); (str "lagfr", Fh); (str "smsep", Fh); (str "ercod", Fh);
   (str "stat.agc", Fh); (str "stat.lopwr", Fh); (str "noise.search", Ff);
   (str "noise.mean", Ff); (str "channel", Fh); (str "bmnum", Fh);
   (str "bmazm", Ff); (str "scan", Fh); (str "offset", Fh);
   (str "rxrise", Fh); (str "intt.sc", Fh); (str "intt.us", Fi);
   (str "txpl", Fh); (str "mpinc", Fh); (str "mppul", Fh); (str "mplgs", Fh);
   (str "nrang", Fh); (str "frang", Fh); (str "rsep", Fh); (str "xcf", Fh);
   (str "tfreq", Fh); (str "mxpwr", Fi); (str "lvmax", Fi);
   (str "rawacf.revision.major", Fi); (str "rawacf.revision.minor", Fi);
   (str "combf", Fs); (str "thr", Ff); (str "ptab", Fh); (str "ltab", Fh);
   (str "slist", Fh); (str "pwr0", Ff)].

(** superdarn_formats.py:71-73 Rawacf.correlation_field. *)
Definition rawacf_correlation_field : group :=
  [(str "acfd", Ff)].

(** superdarn_formats.py:74-76 Rawacf.digitizing_field. *)
Definition rawacf_digitizing_field : group :=
  [(str "ifmode", Fh)].

(** superdarn_formats.py:77-79 Rawacf.fittex_field. *)
Definition rawacf_fittex_field : group :=
  [(str "mplgexs", Fh)].

(** superdarn_formats.py:80-82 Rawacf.cross_correlation_field. *)
Definition rawacf_cross_correlation_field : group :=
  [(str "xcfd", Ff)].

(** superdarn_formats.py:83 Rawacf.optional_fields. *)
Definition rawacf_optional_fields : group :=
  [].

(** superdarn_formats.py:91-143 Fitacf.types. *)
Definition fitacf_types : group :=
  [(str "radar.revision.major", Fc); (str "radar.revision.minor", Fc);
   (str "origin.code", Fc); (str "origin.time", Fs);
   (str "origin.command", Fs); (str "cp", Fh); (str "stid", Fh);
   (str "time.yr", Fh); (str "time.mo", Fh); (str "time.dy", Fh);
   (str "time.hr", Fh); (str "time.mt", Fh); (str "time.sc", Fh);
   (str "time.us", Fi); (str "txpow", Fh); (str "nave", Fh);
   (str "atten", Fh); (str "lagfr", Fh); (str "smsep", Fh); (str "ercod", Fh);
   (str "stat.agc", Fh); (str "stat.lopwr", Fh); (str "noise.search", Ff);
   (str "noise.mean", Ff); (str "channel", Fh); (str "bmnum", Fh);
   (str "bmazm", Ff); (str "scan", Fh); (str "offset", Fh);
   (str "rxrise", Fh); (str "intt.sc", Fh); (str "intt.us", Fi);
   (str "txpl", Fh); (str "mpinc", Fh); (str "mppul", Fh); (str "mplgs", Fh);
   (str "nrang", Fh); (str "frang", Fh); (str "rsep", Fh); (str "xcf", Fh);
   (str "tfreq", Fh); (str "mxpwr", Fi); (str "lvmax", Fi); (str "combf", Fs);
   (str "fitacf.revision.major", Fi); (str "fitacf.revision.minor", Fi);
   (str "noise.sky", Ff); (str "noise.lag0", Ff); (str "noise.vel", Ff);
   (str "ptab", Fh); (str "ltab", Fh); (str "pwr0", Ff)].

(** superdarn_formats.py:144-148 Fitacf.optional_fields. *)
Definition fitacf_optional_fields : group :=
  [(str "ifmode", Fh); (str "mplgexs", Fh); (str "tdiff", Ff);
   (str "algorithm", Fs)].

(** superdarn_formats.py:151-168 Fitacf.fitted_fields. *)
Definition fitacf_fitted_fields : group :=
  [(str "slist", Fh); (str "nlag", Fh); (str "qflg", Fc); (str "gflg", Fc);
   (str "p_l", Ff); (str "p_l_e", Ff); (str "p_s", Ff); (str "p_s_e", Ff);
   (str "v", Ff); (str "v_e", Ff); (str "w_l", Ff); (str "w_l_e", Ff);
   (str "w_s", Ff); (str "w_s_e", Ff); (str "sd_l", Ff); (str "sd_s", Ff);
   (str "sd_phi", Ff)].

(** superdarn_formats.py:170-175 Fitacf.xcf_fields. *)
Definition fitacf_xcf_fields : group :=
  [(str "phi0", Ff); (str "phi0_e", Ff); (str "elv", Ff); (str "x_sd_phi", Ff)].

(** superdarn_formats.py:178-181 Fitacf.xcf_fields_fitacf3. *)
Definition fitacf_xcf_fields_fitacf3 : group :=
  [(str "elv_fitted", Ff); (str "elv_error", Ff)].

(** superdarn_formats.py:184-201 Fitacf.xcf_fields_fitacf2. *)
Definition fitacf_xcf_fields_fitacf2 : group :=
  [(str "x_qflg", Fc); (str "x_gflg", Fc); (str "x_p_l", Ff);
   (str "x_p_l_e", Ff); (str "x_p_s", Ff); (str "x_p_s_e", Ff);
   (str "x_v", Ff); (str "x_v_e", Ff); (str "x_w_l", Ff); (str "x_w_l_e", Ff);
   (str "x_w_s", Ff); (str "x_w_s_e", Ff); (str "elv_low", Ff);
   (str "elv_high", Ff); (str "x_sd_l", Ff); (str "x_sd_s", Ff)].

(** superdarn_formats.py:210-240 Grid.types. *)
Definition grid_types : group :=
  [(str "start.year", Fh); (str "start.month", Fh); (str "start.day", Fh);
   (str "start.hour", Fh); (str "start.minute", Fh); (str "start.second", Fd);
   (str "end.year", Fh); (str "end.month", Fh); (str "end.day", Fh);
   (str "end.hour", Fh); (str "end.minute", Fh); (str "end.second", Fd);
   (str "stid", Fh); (str "channel", Fh); (str "nvec", Fh); (str "freq", Ff);
   (str "major.revision", Fh); (str "minor.revision", Fh);
   (str "program.id", Fh); (str "noise.mean", Ff); (str "noise.sd", Ff);
   (str "gsct", Fh); (str "v.min", Ff); (str "v.max", Ff); (str "p.min", Ff);
   (str "p.max", Ff); (str "w.min", Ff); (str "w.max", Ff);
   (str "ve.min", Ff); (str "ve.max", Ff)].

(** superdarn_formats.py:243-250 Grid.fitted_fields. *)
Definition grid_fitted_fields : group :=
  [(str "vector.mlat", Ff); (str "vector.vel.median", Ff);
   (str "vector.channel", Fh); (str "vector.stid", Fh);
   (str "vector.vel.sd", Ff); (str "vector.index", Fi);
   (str "vector.kvect", Ff); (str "vector.mlon", Ff)].

(** superdarn_formats.py:252-257 Grid.extra_fields. *)
Definition grid_extra_fields : group :=
  [(str "vector.pwr.median", Ff); (str "vector.pwr.sd", Ff);
   (str "vector.wdt.median", Ff); (str "vector.wdt.sd", Ff)].

(** superdarn_formats.py:258 Grid.optional_fields. *)
Definition grid_optional_fields : group :=
  [].

(** superdarn_formats.py:266-328 Map.types. *)
Definition map_types : group :=
  [(str "start.year", Fh); (str "start.month", Fh); (str "start.day", Fh);
   (str "start.hour", Fh); (str "start.minute", Fh); (str "start.second", Fd);
   (str "end.year", Fh); (str "end.month", Fh); (str "end.day", Fh);
   (str "end.hour", Fh); (str "end.minute", Fh); (str "end.second", Fd);
   (str "map.major.revision", Fh); (str "map.minor.revision", Fh);
   (str "doping.level", Fh); (str "model.wt", Fh); (str "error.wt", Fh);
   (str "IMF.flag", Fh); (str "IMF.delay", Fh); (str "IMF.Bx", Fd);
   (str "IMF.By", Fd); (str "IMF.Bz", Fd); (str "IMF.Vx", Fd);
   (str "IMF.tilt", Fd); (str "IMF.Kp", Fd); (str "hemisphere", Fh);
   (str "noigrf", Fh); (str "fit.order", Fh); (str "latmin", Ff);
   (str "chi.sqr", Fd); (str "chi.sqr.dat", Fd); (str "rms.err", Fd);
   (str "lon.shft", Ff); (str "lat.shft", Ff); (str "mlt.start", Fd);
   (str "mlt.end", Fd); (str "mlt.av", Fd); (str "pot.drop", Fd);
   (str "pot.drop.err", Fd); (str "pot.max", Fd); (str "pot.max.err", Fd);
   (str "pot.min", Fd); (str "pot.min.err", Fd); (str "stid", Fh);
   (str "channel", Fh); (str "nvec", Fh); (str "freq", Ff);
   (str "major.revision", Fh); (str "minor.revision", Fh);
   (str "program.id", Fh); (str "noise.mean", Ff); (str "noise.sd", Ff);
   (str "gsct", Fh); (str "v.min", Ff); (str "v.max", Ff); (str "p.min", Ff);
   (str "p.max", Ff); (str "w.min", Ff); (str "w.max", Ff);
   (str "ve.min", Ff); (str "ve.max", Ff)].

(** superdarn_formats.py:329-338 Map.partial_fields. *)
Definition map_partial_fields : group :=
  [(str "vector.mlat", Ff); (str "vector.mlon", Ff); (str "vector.kvect", Ff);
   (str "vector.stid", Fh); (str "vector.channel", Fh);
   (str "vector.index", Fi); (str "vector.vel.median", Ff);
   (str "vector.vel.sd", Ff)].

(** superdarn_formats.py:340-347 Map.hmb_fields. *)
Definition map_hmb_fields : group :=
  [(str "model.mlat", Ff); (str "model.mlon", Ff); (str "model.kvect", Ff);
   (str "model.vel.median", Ff); (str "boundary.mlat", Ff);
   (str "boundary.mlon", Ff)].

(** superdarn_formats.py:349-354 Map.model_fields. *)
Definition map_model_fields : group :=
  [(str "model.angle", Fs); (str "model.level", Fs); (str "model.tilt", Fs);
   (str "model.name", Fs)].

(** superdarn_formats.py:356-362 Map.fit_fields. *)
Definition map_fit_fields : group :=
  [(str "source", Fs); (str "N", Fd); (str "N+1", Fd); (str "N+2", Fd);
   (str "N+3", Fd)].

(** superdarn_formats.py:365-370 Map.extra_fields. *)
Definition map_extra_fields : group :=
  [(str "vector.pwr.median", Ff); (str "vector.pwr.sd", Ff);
   (str "vector.wdt.median", Ff); (str "vector.wdt.sd", Ff)].

(** superdarn_formats.py:371 Map.optional_fields. *)
Definition map_optional_fields : group :=
  [].

(** superdarn_formats.py:379-439 Iqdat.types. *)
Definition iqdat_types : group :=
  [(str "radar.revision.major", Fc); (str "radar.revision.minor", Fc);
   (str "origin.code", Fc); (str "origin.time", Fs);
   (str "origin.command", Fs); (str "cp", Fh); (str "stid", Fh);
   (str "time.yr", Fh); (str "time.mo", Fh); (str "time.dy", Fh);
   (str "time.hr", Fh); (str "time.mt", Fh); (str "time.sc", Fh);
   (str "time.us", Fi); (str "txpow", Fh); (str "nave", Fh);
   (str "atten", Fh); (str "lagfr", Fh); (str "smsep", Fh); (str "ercod", Fh);
   (str "stat.agc", Fh); (str "stat.lopwr", Fh); (str "noise.search", Ff);
   (str "noise.mean", Ff); (str "channel", Fh); (str "bmnum", Fh);
   (str "bmazm", Ff); (str "scan", Fh); (str "offset", Fh);
   (str "rxrise", Fh); (str "intt.sc", Fh); (str "intt.us", Fi);
   (str "txpl", Fh); (str "mpinc", Fh); (str "mppul", Fh); (str "mplgs", Fh);
   (str "nrang", Fh); (str "frang", Fh); (str "rsep", Fh); (str "xcf", Fh);
   (str "tfreq", Fh); (str "mxpwr", Fi); (str "lvmax", Fi);
   (str "iqdata.revision.major", Fi); (str "iqdata.revision.minor", Fi);
   (str "combf", Fs); (str "seqnum", Fi); (str "chnnum", Fi);
   (str "smpnum", Fi); (str "skpnum", Fi); (str "ptab", Fh); (str "ltab", Fh);
   (str "tsc", Fi); (str "tus", Fi); (str "tatten", Fh); (str "tnoise", Ff);
   (str "toff", Fi); (str "tsze", Fi); (str "data", Fh)].

(** superdarn_formats.py:440 Iqdat.optional_fields. *)
Definition iqdat_optional_fields : group :=
  [].

(** superdarn_formats.py:449-486 Snd.types. *)
Definition snd_types : group :=
  [(str "radar.revision.major", Fc); (str "radar.revision.minor", Fc);
   (str "origin.code", Fc); (str "origin.time", Fs);
   (str "origin.command", Fs); (str "cp", Fh); (str "stid", Fh);
   (str "time.yr", Fh); (str "time.mo", Fh); (str "time.dy", Fh);
   (str "time.hr", Fh); (str "time.mt", Fh); (str "time.sc", Fh);
   (str "time.us", Fi); (str "nave", Fh); (str "lagfr", Fh);
   (str "smsep", Fh); (str "noise.search", Ff); (str "noise.mean", Ff);
   (str "channel", Fh); (str "bmnum", Fh); (str "bmazm", Ff);
   (str "scan", Fh); (str "rxrise", Fh); (str "intt.sc", Fh);
   (str "intt.us", Fi); (str "nrang", Fh); (str "frang", Fh);
   (str "rsep", Fh); (str "xcf", Fh); (str "tfreq", Fh);
   (str "noise.sky", Ff); (str "combf", Fs);
   (str "fitacf.revision.major", Fi); (str "fitacf.revision.minor", Fi);
   (str "snd.revision.major", Fh); (str "snd.revision.minor", Fh)].

(** superdarn_formats.py:489-496 Snd.fitted_fields. *)
Definition snd_fitted_fields : group :=
  [(str "slist", Fh); (str "qflg", Fc); (str "gflg", Fc); (str "v", Ff);
   (str "v_e", Ff); (str "p_l", Ff); (str "w_l", Ff)].

(** superdarn_formats.py:498-502 Snd.xcf_fields. *)
Definition snd_xcf_fields : group :=
  [(str "x_qflg", Fc); (str "phi0", Ff); (str "phi0_e", Ff)].

(** superdarn_formats.py:503 Snd.optional_fields. *)
Definition snd_optional_fields : group :=
  [].
