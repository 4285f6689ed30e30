(** Specification of C107: a catalogue of the fields of SuperDARN records. *)
From Coq Require Import ZArith List String Ascii.
From Verif Require Import Base DmapTypes SDarnFormats SDarn SDarnSpec.
Import ListNotations.
Open Scope string_scope.

(** A row is a field, its format, and for Iqdat, Rawacf, Fitacf, Snd, Grid and Map in this
    order where it belongs there: 0 the main group, 1 to 5 the other groups in the order
    [correlation, cross_correlation, digitizing, fittex] (Rawacf),
    [fitted, xcf, xcf fitacf2, xcf fitacf3] (Fitacf), [fitted, xcf] (Snd),
    [fitted, extra] (Grid) and [partial, extra, fit, model, hmb] (Map),
    o the fields that may be absent one by one, - nowhere. *)
Definition catalogue : list (string * fmt * string) :=
  [("gflg", Fc, "--11--");
   ("qflg", Fc, "--11--");
   ("x_gflg", Fc, "--3---");
   ("x_qflg", Fc, "--32--");
   ("origin.code", Fc, "0000--");
   ("radar.revision.major", Fc, "0000--");
   ("radar.revision.minor", Fc, "0000--");
   ("IMF.delay", Fh, "-----0");
   ("IMF.flag", Fh, "-----0");
   ("doping.level", Fh, "-----0");
   ("error.wt", Fh, "-----0");
   ("fit.order", Fh, "-----0");
   ("hemisphere", Fh, "-----0");
   ("map.major.revision", Fh, "-----0");
   ("map.minor.revision", Fh, "-----0");
   ("model.wt", Fh, "-----0");
   ("noigrf", Fh, "-----0");
   ("end.day", Fh, "----00");
   ("end.hour", Fh, "----00");
   ("end.minute", Fh, "----00");
   ("end.month", Fh, "----00");
   ("end.year", Fh, "----00");
   ("gsct", Fh, "----00");
   ("major.revision", Fh, "----00");
   ("minor.revision", Fh, "----00");
   ("nvec", Fh, "----00");
   ("program.id", Fh, "----00");
   ("start.day", Fh, "----00");
   ("start.hour", Fh, "----00");
   ("start.minute", Fh, "----00");
   ("start.month", Fh, "----00");
   ("start.year", Fh, "----00");
   ("vector.channel", Fh, "----11");
   ("vector.stid", Fh, "----11");
   ("snd.revision.major", Fh, "---0--");
   ("snd.revision.minor", Fh, "---0--");
   ("nlag", Fh, "--1---");
   ("slist", Fh, "-011--");
   ("ifmode", Fh, "-3o---");
   ("mplgexs", Fh, "-4o---");
   ("data", Fh, "0-----");
   ("tatten", Fh, "0-----");
   ("atten", Fh, "000---");
   ("ercod", Fh, "000---");
   ("ltab", Fh, "000---");
   ("mpinc", Fh, "000---");
   ("mplgs", Fh, "000---");
   ("mppul", Fh, "000---");
   ("offset", Fh, "000---");
   ("ptab", Fh, "000---");
   ("stat.agc", Fh, "000---");
   ("stat.lopwr", Fh, "000---");
   ("txpl", Fh, "000---");
   ("txpow", Fh, "000---");
   ("bmnum", Fh, "0000--");
   ("cp", Fh, "0000--");
   ("frang", Fh, "0000--");
   ("intt.sc", Fh, "0000--");
   ("lagfr", Fh, "0000--");
   ("nave", Fh, "0000--");
   ("nrang", Fh, "0000--");
   ("rsep", Fh, "0000--");
   ("rxrise", Fh, "0000--");
   ("scan", Fh, "0000--");
   ("smsep", Fh, "0000--");
   ("tfreq", Fh, "0000--");
   ("time.dy", Fh, "0000--");
   ("time.hr", Fh, "0000--");
   ("time.mo", Fh, "0000--");
   ("time.mt", Fh, "0000--");
   ("time.sc", Fh, "0000--");
   ("time.yr", Fh, "0000--");
   ("xcf", Fh, "0000--");
   ("channel", Fh, "000000");
   ("stid", Fh, "000000");
   ("vector.index", Fi, "----11");
   ("fitacf.revision.major", Fi, "--00--");
   ("fitacf.revision.minor", Fi, "--00--");
   ("rawacf.revision.major", Fi, "-0----");
   ("rawacf.revision.minor", Fi, "-0----");
   ("chnnum", Fi, "0-----");
   ("iqdata.revision.major", Fi, "0-----");
   ("iqdata.revision.minor", Fi, "0-----");
   ("seqnum", Fi, "0-----");
   ("skpnum", Fi, "0-----");
   ("smpnum", Fi, "0-----");
   ("toff", Fi, "0-----");
   ("tsc", Fi, "0-----");
   ("tsze", Fi, "0-----");
   ("tus", Fi, "0-----");
   ("lvmax", Fi, "000---");
   ("mxpwr", Fi, "000---");
   ("intt.us", Fi, "0000--");
   ("time.us", Fi, "0000--");
   ("lat.shft", Ff, "-----0");
   ("latmin", Ff, "-----0");
   ("lon.shft", Ff, "-----0");
   ("boundary.mlat", Ff, "-----5");
   ("boundary.mlon", Ff, "-----5");
   ("model.kvect", Ff, "-----5");
   ("model.mlat", Ff, "-----5");
   ("model.mlon", Ff, "-----5");
   ("model.vel.median", Ff, "-----5");
   ("freq", Ff, "----00");
   ("noise.sd", Ff, "----00");
   ("p.max", Ff, "----00");
   ("p.min", Ff, "----00");
   ("v.max", Ff, "----00");
   ("v.min", Ff, "----00");
   ("ve.max", Ff, "----00");
   ("ve.min", Ff, "----00");
   ("w.max", Ff, "----00");
   ("w.min", Ff, "----00");
   ("vector.kvect", Ff, "----11");
   ("vector.mlat", Ff, "----11");
   ("vector.mlon", Ff, "----11");
   ("vector.vel.median", Ff, "----11");
   ("vector.vel.sd", Ff, "----11");
   ("vector.pwr.median", Ff, "----22");
   ("vector.pwr.sd", Ff, "----22");
   ("vector.wdt.median", Ff, "----22");
   ("vector.wdt.sd", Ff, "----22");
   ("noise.lag0", Ff, "--0---");
   ("noise.vel", Ff, "--0---");
   ("noise.sky", Ff, "--00--");
   ("p_l_e", Ff, "--1---");
   ("p_s", Ff, "--1---");
   ("p_s_e", Ff, "--1---");
   ("sd_l", Ff, "--1---");
   ("sd_phi", Ff, "--1---");
   ("sd_s", Ff, "--1---");
   ("w_l_e", Ff, "--1---");
   ("w_s", Ff, "--1---");
   ("w_s_e", Ff, "--1---");
   ("p_l", Ff, "--11--");
   ("v", Ff, "--11--");
   ("v_e", Ff, "--11--");
   ("w_l", Ff, "--11--");
   ("elv", Ff, "--2---");
   ("x_sd_phi", Ff, "--2---");
   ("phi0", Ff, "--22--");
   ("phi0_e", Ff, "--22--");
   ("elv_high", Ff, "--3---");
   ("elv_low", Ff, "--3---");
   ("x_p_l", Ff, "--3---");
   ("x_p_l_e", Ff, "--3---");
   ("x_p_s", Ff, "--3---");
   ("x_p_s_e", Ff, "--3---");
   ("x_sd_l", Ff, "--3---");
   ("x_sd_s", Ff, "--3---");
   ("x_v", Ff, "--3---");
   ("x_v_e", Ff, "--3---");
   ("x_w_l", Ff, "--3---");
   ("x_w_l_e", Ff, "--3---");
   ("x_w_s", Ff, "--3---");
   ("x_w_s_e", Ff, "--3---");
   ("elv_error", Ff, "--4---");
   ("elv_fitted", Ff, "--4---");
   ("tdiff", Ff, "--o---");
   ("thr", Ff, "-0----");
   ("pwr0", Ff, "-00---");
   ("acfd", Ff, "-1----");
   ("xcfd", Ff, "-2----");
   ("tnoise", Ff, "0-----");
   ("bmazm", Ff, "0000--");
   ("noise.search", Ff, "0000--");
   ("noise.mean", Ff, "000000");
   ("IMF.Bx", Fd, "-----0");
   ("IMF.By", Fd, "-----0");
   ("IMF.Bz", Fd, "-----0");
   ("IMF.Kp", Fd, "-----0");
   ("IMF.Vx", Fd, "-----0");
   ("IMF.tilt", Fd, "-----0");
   ("chi.sqr", Fd, "-----0");
   ("chi.sqr.dat", Fd, "-----0");
   ("mlt.av", Fd, "-----0");
   ("mlt.end", Fd, "-----0");
   ("mlt.start", Fd, "-----0");
   ("pot.drop", Fd, "-----0");
   ("pot.drop.err", Fd, "-----0");
   ("pot.max", Fd, "-----0");
   ("pot.max.err", Fd, "-----0");
   ("pot.min", Fd, "-----0");
   ("pot.min.err", Fd, "-----0");
   ("rms.err", Fd, "-----0");
   ("N", Fd, "-----3");
   ("N+1", Fd, "-----3");
   ("N+2", Fd, "-----3");
   ("N+3", Fd, "-----3");
   ("end.second", Fd, "----00");
   ("start.second", Fd, "----00");
   ("source", Fs, "-----3");
   ("model.angle", Fs, "-----4");
   ("model.level", Fs, "-----4");
   ("model.name", Fs, "-----4");
   ("model.tilt", Fs, "-----4");
   ("algorithm", Fs, "--o---");
   ("combf", Fs, "0000--");
   ("origin.command", Fs, "0000--");
   ("origin.time", Fs, "0000--")].

Definition column (t : sd_type) : nat :=
  match t with Iqdat => 0 | Rawacf => 1 | Fitacf => 2 | Snd => 3 | Grid => 4 | Map => 5 end.

(** The place of a field in a type, according to the catalogue. *)
Definition placed (t : sd_type) (k : pystr) (f : fmt) (place : ascii) : Prop :=
  exists s m, In (s, f, m) catalogue /\ str s = k /\ get (column t) m = Some place.

(** The mark of the group with number [i]. *)
Definition mark (i : nat) : ascii := ascii_of_nat (48 + i).

(** A record that has at least one field of the main group. *)
Definition has_main (t : sd_type) (r : record) : Prop := exists k, In k (names r) /\ In k (names (sd_main t)).
