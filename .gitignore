*.cache
*.vo
*.vok
*.vos
*.glob
*.aux
.*.d
Makefile*
