*.aux
*.glob
*.vo
*.vok
*.vos
.Makefile.d
.lia.cache
.nia.cache
CoqMakefile*
Makefile
Makefile.conf
