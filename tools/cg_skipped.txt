GCCSDxTx.energy_perturbative:189 Skip: call dirsum
GMP2.make_rdm2_f:71 Skip: after assembly: rdm1 = make_rdm1_f(t2=t2, l2=l2)
RCCSDxTx.energy_perturbative:302 Skip: call dirsum
RMP2.make_rdm2_f:75 Skip: after assembly: rdm1 = make_rdm1_f(t2=t2, l2=l2)
UCCSDwtwp.update_amps:35 Skip: not a name: t1new_bb[np.ix_(sob, svb)]
UCCSDxTx.energy_perturbative:781 Skip: operator
UMP2.make_rdm2_f:85 Skip: after assembly: rdm1 = make_rdm1_f(t2=t2, l2=l2)
